From Verif Require Import Base BaseFacts TlvModel TlvProofs PingModel PingSpec.
Local Open Scope Z_scope.

(** * Decimal numbers *)
Definition of_dec (l : list N) (a : N) : N := fold_left (fun a d => 10 * a + (d - 48))%N l a.

Lemma of_dec_aux fuel : forall n acc, (n < 10 ^ N.of_nat fuel)%N -> (0 < fuel)%nat ->
  of_dec (dec_aux fuel n acc) 0 = of_dec acc n.
Proof.
  induction fuel as [|fuel IH]; intros n acc Hn Hf; [lia|]. cbn [dec_aux].
  assert (E : of_dec ((48 + n mod 10)%N :: acc) (n / 10) = of_dec acc n).
  { unfold of_dec. cbn [fold_left]. f_equal. pose proof (N.div_mod n 10). lia. }
  destruct (N.ltb_spec n 10) as [H|H].
  - rewrite N.div_small in E by exact H. exact E.
  - rewrite IH; [exact E| |].
    + rewrite Nat2N.inj_succ, N.pow_succ_r' in Hn. apply N.div_lt_upper_bound; lia.
    + destruct fuel; [|lia]. cbn in Hn. lia.
Qed.

Lemma to_string_inj a b : u64 a -> u64 b -> to_string a = to_string b -> a = b.
Proof.
  unfold u64, to_string. intros Ha Hb E.
  assert (H : forall n, (n < 18446744073709551616)%N -> of_dec (dec_aux 20 n []) 0 = n).
  { intros n Hn. apply (of_dec_aux 20 n []); [|lia].
    assert (E' : (10 ^ N.of_nat 20)%N = 100000000000000000000%N) by (vm_compute; reflexivity). rewrite E'. lia. }
  rewrite <- (H a Ha), <- (H b Hb), E. reflexivity.
Qed.

Lemma ping_name_inj o a b : u64 a -> u64 b -> makePingName o a = makePingName o b -> a = b.
Proof.
  intros Ha Hb E. unfold makePingName in E. apply app_inv_head in E.
  injection E as E. apply app_inv_head in E. injection E as E. now apply to_string_inj.
Qed.

Lemma nodup_app_r {A} (a b : list A) : NoDup (a ++ b) -> NoDup b.
Proof. induction a as [|x a IH]; cbn; [auto|]. intros H. inversion_clear H. auto. Qed.
Lemma nodup_app_l {A} (a b : list A) : NoDup (a ++ b) -> NoDup a.
Proof.
  induction a as [|x a IH]; cbn; [constructor|]. intros H. inversion_clear H. constructor; [|auto].
  intros Hx. apply H0, in_or_app. now left.
Qed.

(** * Reading histories *)
Lemma sent_app a b : sent_seqs (a ++ b) = sent_seqs a ++ sent_seqs b.
Proof. apply flat_map_app. Qed.
Lemma data_app a b : data_seqs (a ++ b) = data_seqs a ++ data_seqs b.
Proof. apply flat_map_app. Qed.
Lemma nack_app a b : nack_seqs (a ++ b) = nack_seqs a ++ nack_seqs b.
Proof. apply flat_map_app. Qed.
Lemma timeout_app a b : timeout_seqs (a ++ b) = timeout_seqs a ++ timeout_seqs b.
Proof. apply flat_map_app. Qed.

Lemma settled_cons h x k : In x [GData k 0; GNack k 0; GTimeout k] \/ (exists r, x = GData k r \/ x = GNack k r) ->
  Permutation (settled_seqs (h ++ [x])) (k :: settled_seqs h).
Proof.
  intros H. unfold settled_seqs. rewrite data_app, nack_app, timeout_app.
  assert (D : (exists r, x = GData k r) \/ (exists r, x = GNack k r) \/ x = GTimeout k).
  { destruct H as [[<-|[<-|[<-|[]]]]|(r & [->| ->])]; eauto. }
  destruct D as [(r & ->)|[(r & ->)| ->]]; cbn; rewrite ?app_nil_r.
  - rewrite <- !app_assoc. apply Permutation_sym, Permutation_middle.
  - rewrite <- app_assoc. cbn. rewrite app_assoc.
    etransitivity; [apply Permutation_sym, Permutation_middle|]. now rewrite <- app_assoc.
  - rewrite !app_assoc. etransitivity; [apply Permutation_app_comm|]. reflexivity.
Qed.
Lemma settled_other h x : data_seqs [x] = [] -> nack_seqs [x] = [] -> timeout_seqs [x] = [] -> settled_seqs (h ++ [x]) = settled_seqs h.
Proof. intros H1 H2 H3. unfold settled_seqs. rewrite data_app, nack_app, timeout_app, H1, H2, H3, !app_nil_r. reflexivity. Qed.

Lemma remove_first_perm k l : existsb (N.eqb k) l = true -> Permutation l (k :: remove_first k l).
Proof.
  induction l as [|x l IH]; cbn; [discriminate|]. destruct (N.eqb_spec x k) as [->|Hne]; [reflexivity|].
  destruct (N.eqb_spec k x); [congruence|]. cbn. intros H. etransitivity; [apply perm_skip, IH, H|]. apply perm_swap.
Qed.

(** * The client's invariant *)
Section Client.
Variable o : gopts.
Hypothesis Hopt : valid_gopts o.
Notation n := (g_nPings o).

Definition seq_at (i : nat) : N := ((g_startSeq o + N.of_nat i) mod W64)%N.

Definition nofinish (h : list gobs) : Prop := ~ In GFinish h /\ ~ In GAssert h.

Record CI (s : client) : Prop := {
  ci_sent : sent_seqs (c_hist s) = map seq_at (seq 0 (Z.to_nat (c_nSent s)));
  ci_pos : 0 < c_nSent s;
  ci_next : c_nextSeq s = seq_at (Z.to_nat (c_nSent s));
  ci_bound : 0 < n -> c_nSent s <= n;
  ci_perm : Permutation (sent_seqs (c_hist s)) (c_pending s ++ settled_seqs (c_hist s));
  ci_out : c_nOut s = Z.of_nat (length (c_pending s)) - (if c_nSent s =? n then 1 else 0);
  ci_timer : c_timer s = true -> c_cancelled s = false;
  ci_timer' : c_cancelled s = false -> (c_timer s = true <-> c_nSent s <> n);
  ci_fin : (c_nSent s = n /\ c_pending s = [] /\ c_cancelled s = true /\ exists h, c_hist s = h ++ [GFinish] /\ nofinish h) \/
           ((c_nSent s <> n \/ c_pending s <> []) /\ nofinish (c_hist s))
}.

Lemma seq_at_succ k : ((seq_at k + 1) mod W64 = seq_at (S k))%N.
Proof.
  unfold seq_at. rewrite N.add_mod_idemp_l by discriminate. f_equal. lia.
Qed.

Lemma nofinish_app a b : nofinish (a ++ b) <-> nofinish a /\ nofinish b.
Proof. unfold nofinish. rewrite !in_app_iff. tauto. Qed.
Lemma nofinish1 x : x <> GFinish -> x <> GAssert -> nofinish [x].
Proof. intros H1 H2. split; intros [H|[]]; congruence. Qed.

(** sending the next ping *)
Lemma ci_send s : (n < 0 \/ c_nSent s < n) -> 0 <= c_nSent s -> c_cancelled s = false ->
  sent_seqs (c_hist s) = map seq_at (seq 0 (Z.to_nat (c_nSent s))) ->
  c_nextSeq s = seq_at (Z.to_nat (c_nSent s)) ->
  Permutation (sent_seqs (c_hist s)) (c_pending s ++ settled_seqs (c_hist s)) ->
  c_nOut s = Z.of_nat (length (c_pending s)) -> nofinish (c_hist s) ->
  CI (performPing o s).
Proof.
  intros Hn H0 Hc Hsent Hnext Hperm Hout Hnf. unfold performPing.
  assert (E : (n <? 0) || (c_nSent s <? n) = true).
  { destruct Hn as [Hn|Hn]; apply Z.ltb_lt in Hn; rewrite Hn; auto using orb_true_r. }
  rewrite E. cbn [negb]. cbn zeta. clear E. cbn [c_nSent].
  assert (Hk : Z.to_nat (c_nSent s + 1) = S (Z.to_nat (c_nSent s))) by lia.
  set (h' := c_hist s ++ [GInterest (c_nextSeq s)]).
  assert (Hsent' : sent_seqs h' = map seq_at (seq 0 (Z.to_nat (c_nSent s + 1)))).
  { unfold h'. rewrite sent_app, Hsent, Hk, seq_S, map_app. cbn. now rewrite Hnext. }
  assert (Hset : settled_seqs h' = settled_seqs (c_hist s)) by (now apply settled_other).
  assert (Hperm' : Permutation (sent_seqs h') ((c_pending s ++ [c_nextSeq s]) ++ settled_seqs h')).
  { rewrite Hset. unfold h'. rewrite sent_app, Hperm. cbn.
    rewrite <- !app_assoc. apply Permutation_app_head. apply Permutation_app_comm. }
  assert (Hnext' : ((c_nextSeq s + 1) mod W64)%N = seq_at (Z.to_nat (c_nSent s + 1))) by (rewrite Hk, Hnext; apply seq_at_succ).
  assert (Hnf' : nofinish h') by (apply nofinish_app; split; [exact Hnf|apply nofinish1; discriminate]).
  assert (Hlen : length (c_pending s ++ [c_nextSeq s]) = S (length (c_pending s))) by (rewrite app_length; cbn; lia).
  assert (Hne : c_pending s ++ [c_nextSeq s] <> []) by (intros E'; apply (f_equal (@length N)) in E'; rewrite Hlen in E'; discriminate).
  destruct Hopt as [Hopt1 _].
  destruct ((n <? 0) || (c_nSent s + 1 <? n)) eqn:E2; cbn [c_nSent c_nextSeq c_nOut c_pending c_cancelled c_hist] in *.
  - assert (Hlt : c_nSent s + 1 <> n) by lia.
    constructor; cbn [c_nSent c_nextSeq c_nOut c_pending c_cancelled c_hist c_timer]; try assumption; try lia.
    all: first [rewrite Hlen, Hout; destruct (Z.eqb_spec (c_nSent s + 1) n); lia | tauto
               | right; split; [now left|exact Hnf']].
  - assert (Heq : c_nSent s + 1 = n) by lia.
    unfold c_finish. cbn [c_nSent c_nextSeq c_nOut c_pending c_cancelled c_hist c_timer].
    destruct (_ >=? 0) eqn:E3; [|exfalso; lia].
    constructor; cbn [c_nSent c_nextSeq c_nOut c_pending c_cancelled c_hist c_timer]; try assumption; try lia.
    all: first [rewrite Hlen, Hout; destruct (Z.eqb_spec (c_nSent s + 1) n); lia
               | intros _; split; [discriminate|lia]
               | right; split; [now right|exact Hnf']].
Qed.

Lemma ci_start : CI (g_start o).
Proof.
  destruct Hopt as [H1 H2]. apply ci_send; cbn; try reflexivity.
  all: first [lia | unfold seq_at; cbn [N.of_nat]; rewrite N.add_0_r; symmetry; now apply N.mod_small
             | now constructor | split; intros []].
Qed.

Lemma ci_answer s k x : CI s ->
  (x = GTimeout k \/ exists r, x = GData k r \/ x = GNack k r) -> CI (c_answer k x s).
Proof.
  intros HI Hx. unfold c_answer. destruct (existsb (N.eqb k) (c_pending s)) eqn:E; [|exact HI].
  apply remove_first_perm in E. destruct HI as [I1 I0 I2 I3 I4 I5 I6 I7 I8].
  set (l := remove_first k (c_pending s)) in *.
  assert (Hpne : c_pending s <> []) by (intros E'; rewrite E' in E; apply Permutation_nil in E; discriminate).
  assert (Hlen : length (c_pending s) = S (length l)) by (apply Permutation_length in E; exact E).
  destruct I8 as [(_ & H & _)|[_ Hnf]]; [contradiction|].
  assert (Hnf' : nofinish (c_hist s ++ [x])).
  { apply nofinish_app. split; [exact Hnf|]. apply nofinish1; destruct Hx as [->|(r & [->| ->])]; discriminate. }
  assert (Hsx : sent_seqs [x] = []) by (destruct Hx as [->|(r & [->| ->])]; reflexivity).
  assert (Hsent' : sent_seqs (c_hist s ++ [x]) = sent_seqs (c_hist s)) by (rewrite sent_app, Hsx, app_nil_r; reflexivity).
  assert (Hperm' : Permutation (sent_seqs (c_hist s ++ [x])) (l ++ settled_seqs (c_hist s ++ [x]))).
  { rewrite Hsent', I4, E. cbn. rewrite (settled_cons (c_hist s) x k).
    - apply Permutation_middle.
    - destruct Hx as [->|(r & Hr)]; [left; cbn; auto|right; eauto]. }
  unfold c_finish, c_emit. cbn [c_nSent c_nextSeq c_nOut c_pending c_cancelled c_hist c_timer].
  destruct (c_nOut s - 1 >=? 0) eqn:Eo.
  - constructor; cbn [c_nSent c_nextSeq c_nOut c_pending c_cancelled c_hist c_timer]; try assumption.
    + now rewrite Hsent'.
    + lia.
    + right. split; [|exact Hnf']. destruct (Z.eqb_spec (c_nSent s) n); [right|now left].
      intros E'. rewrite E' in Hlen. cbn in Hlen. lia.
  - destruct (Z.eqb_spec (c_nSent s) n) as [Hn|Hn]; [|exfalso; lia].
    assert (Hl : l = []) by (destruct l; [reflexivity|cbn in Hlen; lia]).
    unfold c_cancel. cbn [c_nSent c_nextSeq c_nOut c_pending c_cancelled c_hist c_timer].
    constructor; cbn [c_nSent c_nextSeq c_nOut c_pending c_cancelled c_hist c_timer]; try assumption; try discriminate.
    + rewrite sent_app. cbn. rewrite app_nil_r. now rewrite Hsent'.
    + rewrite sent_app, settled_other by reflexivity. cbn. rewrite app_nil_r. exact Hperm'.
    + destruct (Z.eqb_spec (c_nSent s) n); lia.
    + left. split; [exact Hn|]. split; [exact Hl|]. split; [reflexivity|]. eauto.
Qed.

Lemma ci_step s e : CI s -> CI (g_step o s e).
Proof.
  intros HI. destruct e as [|k r|k r|k| |]; cbn [g_step]; try (apply ci_answer; [exact HI|eauto]).
  - destruct (c_timer s) eqn:Et; [|exact HI]. destruct HI as [I1 I0 I2 I3 I4 I5 I6 I7 I8]. specialize (I6 Et).
    apply I7 in I6 as I7'. apply I7' in Et as Hne. destruct Hopt as [Ho _].
    destruct I8 as [(H & _)|[_ Hnf]]; [contradiction|].
    apply ci_send; try assumption; try lia.
    rewrite I5. destruct (Z.eqb_spec (c_nSent s) n); [contradiction|lia].
  - destruct (c_cancelled s) eqn:Ec; [exact HI|]. destruct HI as [I1 I0 I2 I3 I4 I5 I6 I7 I8].
    unfold c_cancel. constructor; cbn [c_nSent c_nextSeq c_nOut c_pending c_cancelled c_hist c_timer]; try assumption; try discriminate.
    destruct I8 as [(H1 & H2 & H3 & H4)|H]; [left; auto|right; exact H].
  - exact HI.
Qed.

Lemma ci_run es : CI (g_run o es).
Proof. unfold g_run. apply fold_left_inv; [intros; now apply ci_step|apply ci_start]. Qed.

(** ** Consequences *)
Notation H es := (c_hist (g_run o es)).

Lemma sent_length es : Z.of_nat (length (sent_seqs (H es))) = c_nSent (g_run o es).
Proof. destruct (ci_run es). rewrite ci_sent0, map_length, seq_length. lia. Qed.

Lemma ping_bound es : 0 < n -> Z.of_nat (length (sent_seqs (H es))) <= n.
Proof. rewrite sent_length. destruct (ci_run es). assumption. Qed.

Lemma ping_sequence es i k : nth_error (sent_seqs (H es)) i = Some k ->
  k = ((g_startSeq o + N.of_nat i) mod 18446744073709551616)%N.
Proof.
  destruct (ci_run es). rewrite ci_sent0. intros E. rewrite nth_error_map in E.
  destruct (nth_error (seq 0 _) i) as [j|] eqn:Ej; [|discriminate]. injection E as <-.
  assert (j = i) as ->; [|reflexivity].
  assert (Hi : (i < length (seq 0 (Z.to_nat (c_nSent (g_run o es)))))%nat) by (apply nth_error_Some; congruence).
  apply nth_error_nth with (d := 0%nat) in Ej. rewrite seq_length in Hi. rewrite seq_nth in Ej by exact Hi. lia.
Qed.

Lemma seq_at_inj i j : (Z.of_nat i < 18446744073709551616) -> (Z.of_nat j < 18446744073709551616) -> seq_at i = seq_at j -> i = j.
Proof.
  intros Hi Hj E. unfold seq_at in E.
  assert (forall a b : nat, (a <= b)%nat -> (N.of_nat b < W64)%N -> ((g_startSeq o + N.of_nat a) mod W64 = (g_startSeq o + N.of_nat b) mod W64)%N -> a = b).
  { intros a b Hab Hb E'. pose proof (N.div_mod (g_startSeq o + N.of_nat a) W64). pose proof (N.div_mod (g_startSeq o + N.of_nat b) W64).
    pose proof (N.div_le_mono (g_startSeq o + N.of_nat a) (g_startSeq o + N.of_nat b) W64).
    set (q1 := ((g_startSeq o + N.of_nat a) / W64)%N) in *. set (q2 := ((g_startSeq o + N.of_nat b) / W64)%N) in *.
    unfold W64 in *. assert (q1 = q2 \/ (q1 + 1 <= q2)%N) as [Hq|Hq] by lia; nia. }
  destruct (Nat.le_ge_cases i j).
  - apply H; auto. unfold W64. lia.
  - symmetry. apply H; auto. unfold W64. lia.
Qed.

Lemma sent_nodup es : Z.of_nat (length (sent_seqs (H es))) <= 18446744073709551616 -> NoDup (sent_seqs (H es)).
Proof.
  rewrite sent_length. intros Hb. destruct (ci_run es). rewrite ci_sent0.
  assert (G : forall m a, Z.of_nat (a + m) <= 18446744073709551616 -> NoDup (map seq_at (seq a m))).
  { clear. induction m as [|m IH]; intros a Ha; cbn; constructor.
    - intros Hin. apply in_map_iff in Hin. destruct Hin as (j & E & Hj). apply in_seq in Hj.
      apply seq_at_inj in E; lia.
    - apply IH. lia. }
  apply G. lia.
Qed.

Lemma seq_at_u64 i : u64 (seq_at i).
Proof. unfold u64, seq_at. apply N.mod_lt. discriminate. Qed.
Lemma sent_u64 es k : In k (sent_seqs (H es)) -> u64 k.
Proof.
  destruct (ci_run es). rewrite ci_sent0. intros Hin. apply in_map_iff in Hin. destruct Hin as (i & <- & _). apply seq_at_u64.
Qed.

Lemma names_nodup es : Z.of_nat (length (sent_seqs (H es))) <= 18446744073709551616 ->
  NoDup (map (makePingName o) (sent_seqs (H es))).
Proof.
  intros Hb. apply sent_nodup in Hb as Hnd. pose proof (sent_u64 es) as Hu. clear Hb.
  induction (sent_seqs (H es)) as [|k l IH]; cbn; [constructor|].
  inversion_clear Hnd. constructor.
  - intros Hin. apply in_map_iff in Hin. destruct Hin as (j & E & Hj).
    apply ping_name_inj in E; [subst j; contradiction|apply Hu; now right|apply Hu; now left].
  - apply IH; [assumption|intros; apply Hu; now right].
Qed.

Lemma ping_name_prefix k : exists rest, makePingName o k = g_prefix o ++ [ping_comp] ++ rest /\ (rest <> []).
Proof.
  unfold makePingName. eexists. split; [reflexivity|]. intros E. apply (f_equal (@length component)) in E.
  rewrite app_length in E. cbn in E. lia.
Qed.

(** the timer is armed until all pings are sent or the user interrupts *)
Lemma not_cancelled es : ~ In GeInterrupt es -> c_nSent (g_run o es) <> n -> c_cancelled (g_run o es) = false.
Proof.
  induction es as [|e es IH] using rev_ind; intros Hni Hne.
  - unfold g_run in *. cbn [fold_left] in *. revert Hne. unfold g_start, performPing. cbn [c_nSent].
    destruct (negb _); [reflexivity|]. cbn zeta. cbn [c_nSent]. destruct (_ || _); [reflexivity|].
    unfold c_finish. cbn. reflexivity.
  - pose proof (ci_run es) as HI. pose proof (ci_run (es ++ [e])) as HI'.
    unfold g_run in *. rewrite fold_left_app in *. cbn [fold_left] in *. set (s := fold_left (g_step o) es (g_start o)) in *.
    assert (Hni' : ~ In GeInterrupt es) by (intros X; apply Hni, in_or_app; now left).
    specialize (IH Hni').
    assert (Ha : forall k x, c_nSent (c_answer k x s) <> n -> c_cancelled s = false -> c_cancelled (c_answer k x s) = false).
    { intros k x. unfold c_answer. destruct (existsb _ _) eqn:Ex; [|auto].
      unfold c_finish, c_emit. cbn. destruct (_ >=? 0) eqn:Eo; cbn; [auto|]. intros Hs _. exfalso.
      destruct HI as [I1 I0 I2 I3 I4 I5 I6 I7 I8]. destruct (Z.eqb_spec (c_nSent s) n); [contradiction|].
      apply remove_first_perm, Permutation_length in Ex. cbn in Ex. lia. }
    assert (Hs : forall k x, c_nSent (c_answer k x s) = c_nSent s).
    { intros k x. unfold c_answer. destruct (existsb _ _); [|reflexivity].
      unfold c_finish, c_emit. cbn. destruct (_ >=? 0); reflexivity. }
    destruct e as [|k r|k r|k| |]; cbn [g_step] in *.
    + destruct (c_timer s) eqn:Et; [|apply IH; exact Hne].
      destruct HI as [I1 I0 I2 I3 I4 I5 I6 I7 I8]. specialize (I6 Et).
      clear HI'. revert Hne. unfold performPing. destruct (negb _); [intros _; exact I6|]. cbn zeta. cbn [c_nSent].
      destruct (_ || _); [intros _; exact I6|].
      unfold c_finish. cbn. destruct (_ >=? 0) eqn:Eo; cbn; [intros _; exact I6|].
      intros _. exfalso. destruct (Z.eqb_spec (c_nSent s) n) as [Hn|Hn]; [|lia].
      apply I7 in I6. apply I6 in Et. contradiction.
    + apply Ha; [exact Hne|]. apply IH. now rewrite Hs in Hne.
    + apply Ha; [exact Hne|]. apply IH. now rewrite Hs in Hne.
    + apply Ha; [exact Hne|]. apply IH. now rewrite Hs in Hne.
    + exfalso. apply Hni, in_or_app. right. now left.
    + apply IH. exact Hne.
Qed.

Lemma ping_progress es : ~ In GeInterrupt es ->
  (g_nPings o < 0 \/ Z.of_nat (length (sent_seqs (H es))) < n) ->
  length (sent_seqs (H (es ++ [GeTimer]))) = S (length (sent_seqs (H es))).
Proof.
  intros Hni Hlt. rewrite sent_length in Hlt. pose proof (ci_run es) as HI.
  assert (Hne : c_nSent (g_run o es) <> n) by (destruct HI; lia).
  pose proof (not_cancelled es Hni Hne) as Hc. destruct HI as [I1 I0 I2 I3 I4 I5 I6 I7 I8].
  apply I7 in Hc. apply Hc in Hne. unfold g_run in *. rewrite fold_left_app. cbn [fold_left g_step]. rewrite Hne.
  unfold performPing.
  assert (E : (n <? 0) || (c_nSent (fold_left (g_step o) es (g_start o)) <? n) = true) by lia.
  rewrite E. cbn [negb]. cbn zeta. cbn [c_nSent]. clear E.
  destruct (_ || _); [|unfold c_finish; cbn; destruct (_ >=? 0)]; cbn [c_hist c_cancel c_emit]; repeat rewrite sent_app; repeat rewrite app_length; cbn; lia.
Qed.

Lemma ping_ended_all es : ~ In GeInterrupt es -> 0 < n -> g_ended (g_run o es) = true ->
  Z.of_nat (length (sent_seqs (H es))) = n.
Proof.
  intros Hni Hn He. rewrite sent_length. unfold g_ended in He. apply andb_prop in He. destruct He as [He _].
  apply andb_prop in He. destruct He as [He _].
  destruct (Z.eq_dec (c_nSent (g_run o es)) n) as [E|E]; [exact E|].
  rewrite (not_cancelled es Hni E) in He. discriminate.
Qed.

(** each ping is settled at most once *)
Lemma ping_settled es : exists unanswered, Permutation (sent_seqs (H es)) (unanswered ++ settled_seqs (H es)).
Proof. destruct (ci_run es). eauto. Qed.

Lemma ping_no_assert es : ~ In GAssert (H es).
Proof.
  destruct (ci_run es) as [_ _ _ _ _ _ _ _ [(_ & _ & _ & h & -> & Hh)|[_ Hh]]]; [|exact (proj2 Hh)].
  rewrite in_app_iff. intros [X|[X|[]]]; [now apply (proj2 Hh) in X|discriminate].
Qed.

Lemma finish_last es h1 h2 : H es = h1 ++ GFinish :: h2 -> h2 = [] /\ ~ In GFinish h1.
Proof.
  intros E. destruct (ci_run es) as [_ _ _ _ _ _ _ _ [(_ & _ & _ & h & Eh & Hh)|[_ Hh]]].
  - rewrite E in Eh. destruct (exists_last (l := GFinish :: h2)) as (l & y & El); [discriminate|].
    destruct l as [|z l].
    + injection El as <- ->. apply app_inj_tail in Eh. destruct Eh as [-> _]. split; [reflexivity|exact (proj1 Hh)].
    + injection El as <- ->. rewrite app_comm_cons, app_assoc in Eh. apply app_inj_tail in Eh. destruct Eh as [Eh _].
      exfalso. apply (proj1 Hh). rewrite <- Eh. apply in_or_app. right. now left.
  - exfalso. apply (proj1 Hh). rewrite E. apply in_or_app. right. now left.
Qed.

Lemma finish_iff es : In GFinish (H es) <->
  (Z.of_nat (length (sent_seqs (H es))) = n /\ Permutation (sent_seqs (H es)) (settled_seqs (H es))).
Proof.
  rewrite sent_length. destruct (ci_run es) as [I1 I0 I2 I3 I4 I5 I6 I7 I8]. destruct I8 as [(H1 & H2 & _ & h & Eh & _)|[H1 H2]].
  - split; [intros _|intros _; rewrite Eh; apply in_or_app; right; now left].
    split; [exact H1|]. rewrite I4, H2. reflexivity.
  - split; [intros X; exfalso; now apply (proj1 H2)|]. intros [Hn Hp]. exfalso.
    destruct H1 as [H1|H1]; [contradiction|]. apply H1. apply Permutation_length in Hp, I4.
    rewrite app_length in I4. destruct (c_pending (g_run o es)); [reflexivity|cbn in I4; lia].
Qed.

(** ** Exit status *)
Lemma counters_fold h : forall c0, fold_left count_obs h c0 =
  Counters (n_sent c0 + Z.of_nat (length (settled_seqs h))) (n_received c0 + Z.of_nat (length (data_seqs h)))
           (n_nacked c0 + Z.of_nat (length (nack_seqs h))).
Proof.
  induction h as [|x h IH]; intros c0; cbn [fold_left].
  - destruct c0. cbn. f_equal; lia.
  - rewrite IH. unfold settled_seqs. change (x :: h) with ([x] ++ h). rewrite !data_app, !nack_app, !timeout_app.
    repeat rewrite app_length. destruct x; cbn [count_obs n_sent n_received n_nacked]; f_equal; cbn [data_seqs nack_seqs timeout_seqs flat_map app length]; lia.
Qed.
Lemma counters_eq h : counters_of h =
  Counters (Z.of_nat (length (settled_seqs h))) (Z.of_nat (length (data_seqs h))) (Z.of_nat (length (nack_seqs h))).
Proof. unfold counters_of. rewrite counters_fold. reflexivity. Qed.

Lemma exit_iff es : g_ended (g_run o es) = true ->
  (exit_status (H es) = 0 <-> Permutation (sent_seqs (H es)) (data_seqs (H es))) /\
  (exit_status (H es) = 0 \/ exit_status (H es) = 1).
Proof.
  intros He. unfold exit_status. rewrite counters_eq. cbn [n_sent n_received].
  split; [|destruct (_ =? _); auto].
  unfold g_ended in He. apply andb_prop in He. destruct He as [_ He].
  destruct (ci_run es). destruct (c_pending (g_run o es)); [|discriminate]. cbn in ci_perm0.
  unfold settled_seqs in *. rewrite app_length.
  destruct (Z.eqb_spec (Z.of_nat (length (data_seqs (H es)))) (Z.of_nat (length (data_seqs (H es)) + length (nack_seqs (H es) ++ timeout_seqs (H es))))) as [E|E].
  - split; [intros _|reflexivity]. rewrite ci_perm0.
    destruct (nack_seqs (H es) ++ timeout_seqs (H es)) eqn:En; [now rewrite app_nil_r|cbn in E; lia].
  - split; [discriminate|]. intros Hp. exfalso. apply Permutation_length in Hp, ci_perm0. rewrite app_length in ci_perm0. lia.
Qed.

Lemma counters_when_ended es : g_ended (g_run o es) = true ->
  n_sent (counters_of (H es)) = Z.of_nat (length (sent_seqs (H es))).
Proof.
  intros He. rewrite counters_eq. cbn [n_sent]. unfold g_ended in He. apply andb_prop in He. destruct He as [_ He].
  destruct (ci_run es). destruct (c_pending (g_run o es)); [|discriminate]. apply Permutation_length in ci_perm0. now rewrite ci_perm0.
Qed.

Lemma counters_range es :
  0 <= c_nSent (g_run o es) <= Z.of_nat (length (sent_seqs (H es))) /\
  -1 <= c_nOut (g_run o es) <= Z.of_nat (length (sent_seqs (H es))) /\
  0 <= n_received (counters_of (H es)) /\ 0 <= n_nacked (counters_of (H es)) /\
  n_received (counters_of (H es)) + n_nacked (counters_of (H es)) <= n_sent (counters_of (H es)) <= Z.of_nat (length (sent_seqs (H es))).
Proof.
  rewrite counters_eq. cbn [n_sent n_received n_nacked]. unfold settled_seqs. rewrite !app_length.
  pose proof (sent_length es). destruct (ci_run es). apply Permutation_length in ci_perm0.
  unfold settled_seqs in ci_perm0. rewrite !app_length in ci_perm0.
  destruct (_ =? _) in ci_out0; lia.
Qed.

(** the process ends when the last ping is settled, or after an interrupt *)
Lemma ended_after_finish es : In GFinish (H es) -> g_ended (g_run o es) = true.
Proof.
  intros Hf. destruct (ci_run es) as [I1 I0 I2 I3 I4 I5 I6 I7 I8]. destruct I8 as [(H1 & H2 & H3 & _)|[_ H2]]; [|now apply (proj1 H2) in Hf].
  unfold g_ended. rewrite H2, H3. destruct (c_timer (g_run o es)); [specialize (I6 eq_refl); congruence|reflexivity].
Qed.
Lemma interrupt_persists es : forall s, c_cancelled s = true -> c_timer s = false ->
  c_cancelled (fold_left (g_step o) es s) = true /\ c_timer (fold_left (g_step o) es s) = false /\
  sent_seqs (c_hist (fold_left (g_step o) es s)) = sent_seqs (c_hist s).
Proof.
  induction es as [|e es IH]; intros s Hc Ht; [auto|]. cbn [fold_left].
  assert (Ha : forall k x, sent_seqs [x] = [] -> c_cancelled (c_answer k x s) = true /\ c_timer (c_answer k x s) = false /\
                           sent_seqs (c_hist (c_answer k x s)) = sent_seqs (c_hist s)).
  { intros k x Hx. unfold c_answer. destruct (existsb _ _); [|auto]. unfold c_finish, c_emit. cbn.
    destruct (_ >=? 0); cbn; rewrite !sent_app, Hx; cbn; rewrite ?app_nil_r; auto. }
  assert (G : c_cancelled (g_step o s e) = true /\ c_timer (g_step o s e) = false /\
              sent_seqs (c_hist (g_step o s e)) = sent_seqs (c_hist s)).
  { destruct e; cbn [g_step]; auto; [rewrite Ht; auto|rewrite Hc; auto]. }
  destruct G as (G1 & G2 & G3). destruct (IH _ G1 G2) as (J1 & J2 & J3). rewrite J3, G3. auto.
Qed.
Lemma interrupt_stops es1 es2 :
  let H' := H (es1 ++ GeInterrupt :: es2) in
  sent_seqs H' = sent_seqs (H es1) /\
  (g_ended (g_run o (es1 ++ GeInterrupt :: es2)) = true <-> Permutation (sent_seqs H') (settled_seqs H')).
Proof.
  cbn zeta. pose proof (ci_run es1) as HI. pose proof (ci_run (es1 ++ GeInterrupt :: es2)) as HI'.
  unfold g_run in *. rewrite fold_left_app in *. cbn [fold_left g_step] in *.
  set (s := fold_left (g_step o) es1 (g_start o)) in *.
  assert (G : exists s', s' = (if c_cancelled s then s else c_cancel s) /\ c_cancelled s' = true /\ c_timer s' = false /\ c_hist s' = c_hist s).
  { eexists. split; [reflexivity|]. destruct (c_cancelled s) eqn:Ec; [|cbn; auto]. split; [exact Ec|]. split; [|reflexivity].
    destruct HI. destruct (c_timer s); [specialize (ci_timer0 eq_refl); congruence|reflexivity]. }
  destruct G as (s' & Es & G1 & G2 & G3). rewrite <- Es in *.
  destruct (interrupt_persists es2 s' G1 G2) as (J1 & J2 & J3). split; [now rewrite J3, G3|].
  unfold g_ended. rewrite J1, J2. cbn. destruct HI'. 
  set (t := fold_left (g_step o) es2 s') in *.
  destruct (c_pending t) eqn:Ep.
  - split; [intros _; exact ci_perm0|reflexivity].
  - split; [discriminate|]. intros Hp. apply Permutation_length in Hp, ci_perm0. rewrite app_length in ci_perm0. cbn in ci_perm0. lia.
Qed.
End Client.

(** * The server *)
Section Server.
Variable o : sopts.
Lemma answers_app a b : answers (a ++ b) = answers a ++ answers b.
Proof. apply flat_map_app. Qed.

Definition limited (l : list interest) : list interest :=
  if (s_nMax o =? 0)%N then l else firstn (N.to_nat (s_nMax o)) l.

Record SI (l : list interest) (s : server) : Prop := {
  si_hist : s_hist s = map (fun i => SAnswer i (pong o i)) (limited l) ++ (if s_active s then [] else [SFinish]);
  si_count : s_nPings s = N.of_nat (length (limited l));
  si_active : s_active s = false <-> ((0 < s_nMax o)%N /\ s_nMax o = s_nPings s)
}.

Lemma si_run es : ~ In SeInterrupt es -> SI (pings_in o es) (s_run o es).
Proof.
  induction es as [|e es IH] using rev_ind; intros Hni.
  - constructor; cbn; unfold limited; destruct (N.eqb_spec (s_nMax o) 0); rewrite ?firstn_nil; cbn; try reflexivity;
      (split; [discriminate|]; intros [X Y]; lia).
  - assert (Hni' : ~ In SeInterrupt es) by (intros X; apply Hni, in_or_app; now left).
    specialize (IH Hni'). unfold s_run in *. rewrite fold_left_app. cbn [fold_left].
    set (s := fold_left (s_step o) es _) in *.
    unfold pings_in in *. rewrite flat_map_app. cbn [flat_map]. rewrite app_nil_r.
    destruct e as [i|]; [|exfalso; apply Hni, in_or_app; right; now left]. cbn [s_step].
    destruct (is_prefix_of _ _); [|rewrite andb_false_r, app_nil_r; exact IH]. rewrite andb_true_r.
    set (l := flat_map _ es) in *. destruct IH as [J1 J2 J3].
    destruct (s_active s) eqn:Ea.
    + assert (Hlim : (s_nMax o = 0 \/ N.of_nat (length l) < s_nMax o)%N /\ limited l = l).
      { unfold limited in *. destruct (N.eqb_spec (s_nMax o) 0) as [E|E]; [auto|].
        destruct (N.lt_ge_cases (N.of_nat (length l)) (s_nMax o)) as [L|L].
        - split; [auto|]. apply firstn_all2. lia.
        - exfalso. rewrite firstn_length_le in J2 by lia. assert (X : true = false) by (apply J3; lia). discriminate. }
      destruct Hlim as [Hlim El]. rewrite El in *.
      assert (El' : limited (l ++ [i]) = l ++ [i]).
      { unfold limited. destruct (N.eqb_spec (s_nMax o) 0); [reflexivity|]. apply firstn_all2. rewrite app_length. cbn. lia. }
      rewrite app_nil_r in J1. unfold onInterest. rewrite J1.
      destruct ((0 <? s_nMax o)%N && (s_nMax o =? s_nPings s + 1)%N) eqn:E; constructor; cbn [s_hist s_active s_nPings]; rewrite ?El'.
      * rewrite map_app. cbn. reflexivity.
      * rewrite app_length. cbn. lia.
      * split; [intros _; lia|reflexivity].
      * rewrite Ea, map_app, app_nil_r. reflexivity.
      * rewrite app_length. cbn. lia.
      * rewrite Ea. split; [discriminate|]. lia.
    + assert (Hfull : limited (l ++ [i]) = limited l).
      { destruct J3 as [J3 _]. specialize (J3 eq_refl). unfold limited in *. destruct (N.eqb_spec (s_nMax o) 0); [lia|].
        rewrite firstn_app. rewrite firstn_length in J2.
        replace (N.to_nat (s_nMax o) - length l)%nat with 0%nat by lia. cbn. apply app_nil_r. }
      constructor; rewrite ?Hfull, ?Ea; auto.
Qed.

Lemma stopped_forever es : forall s, s_active s = false -> s_hist (fold_left (s_step o) es s) = s_hist s.
Proof.
  induction es as [|e es IH]; intros s Hs; cbn; [reflexivity|].
  destruct e as [i|]; cbn; [rewrite Hs; cbn; now apply IH|]. rewrite IH by reflexivity. reflexivity.
Qed.

Lemma server_answers es : ~ In SeInterrupt es ->
  s_hist (s_run o es) = map (fun i => SAnswer i (pong o i)) (limited (pings_in o es)) ++
                        (if (0 <? s_nMax o)%N && (s_nMax o <=? N.of_nat (length (pings_in o es)))%N then [SFinish] else []) /\
  s_nPings (s_run o es) = N.of_nat (length (limited (pings_in o es))).
Proof.
  intros Hni. destruct (si_run es Hni) as [J1 J2 J3]. split; [|exact J2]. rewrite J1. f_equal.
  destruct (s_active (s_run o es)) eqn:Ea.
  - destruct (_ && _) eqn:E; [|reflexivity]. exfalso.
    assert (X : true = false); [|discriminate]. apply J3. rewrite J2. unfold limited.
    destruct (N.eqb_spec (s_nMax o) 0); [lia|]. rewrite firstn_length_le by lia. lia.
  - destruct J3 as [J3 _]. specialize (J3 eq_refl). rewrite J2 in J3. unfold limited in J3.
    destruct (N.eqb_spec (s_nMax o) 0); [lia|]. rewrite firstn_length in J3.
    destruct (_ && _) eqn:E; [reflexivity|]. exfalso. lia.
Qed.

Lemma server_interrupted es1 es2 : s_hist (s_run o (es1 ++ SeInterrupt :: es2)) = s_hist (s_run o es1).
Proof. unfold s_run. rewrite fold_left_app. cbn [fold_left s_step]. now rewrite stopped_forever. Qed.
End Server.

(** * Client and server *)
Section System.
Variable digest : packet -> component.
Variable co : gopts.
Variable so : sopts.
Hypothesis Hopt : valid_gopts co.

Lemma ping_name_length k j : length (makePingName co k) = length (makePingName co j).
Proof. unfold makePingName. rewrite !app_length. reflexivity. Qed.

Lemma pong_satisfies k j : u64 k -> u64 j ->
  (matches_data digest (ping_interest co j) (pong so (ping_interest co k)) = true <->
   j = k /\ (g_stale co = true \/ 0 < s_fresh so)).
Proof.
  intros Hk Hj. unfold matches_data, ping_interest, pong. cbn [i_name i_canBePrefix i_mustBeFresh k_name k_fresh].
  rewrite (ping_name_length k j).
  assert (E : Nat.eqb (length (makePingName co j)) (length (makePingName co j) + 1) = false) by (apply Nat.eqb_neq; lia).
  rewrite E. destruct (g_stale co); cbn [negb andb].
  - rewrite name_eqb_spec. split; [intros H; split; [now apply ping_name_inj in H|auto]|intros [-> _]; reflexivity].
  - destruct (Z.leb_spec (s_fresh so) 0) as [H|H].
    + split; [discriminate|]. intros [_ [X|X]]; [discriminate|lia].
    + rewrite name_eqb_spec. split; [intros X; split; [now apply ping_name_inj in X|auto]|intros [-> _]; reflexivity].
Qed.

(** the client part of a run of the system is a run of the client *)
Lemma y_client_run es : exists ges, y_client (y_run digest co so es) = g_run co ges.
Proof.
  induction es as [|e es IH] using rev_ind; [exists []; reflexivity|].
  unfold y_run in *. rewrite fold_left_app. cbn [fold_left]. set (y := fold_left _ es _) in *.
  destruct IH as (ges & Eg). unfold y_step.
  assert (K : forall l, exists ges', fold_left (g_step co) l (y_client y) = g_run co ges').
  { intros l. exists (ges ++ l). unfold g_run. rewrite fold_left_app. now rewrite Eg. }
  destruct e as [e|k|k rtt].
  - assert (K1 : forall e', exists ges', y_client (System (g_step co (y_client y) e') (y_server y)) = g_run co ges')
      by (intros e'; exact (K [e'])).
    destruct e; first [apply K1 | exists ges; exact Eg].
  - destruct (nth_error _ k); exists ges; exact Eg.
  - destruct (nth_error _ k) as [d|]; [|exists ges; exact Eg]. cbn [y_client].
    destruct (K (map (fun seq => GeData seq rtt) (satisfied digest co d (c_pending (y_client y))))) as (ges' & E').
    exists ges'. rewrite <- E'. clear. generalize (y_client y). intros s.
    generalize (satisfied digest co d (c_pending s)) as l. intros l. revert s.
    induction l as [|a l IH]; intros s; cbn; [reflexivity|]. apply IH.
Qed.

Definition answered_names (y : system) : list name := map k_name (answers (s_hist (y_server y))).
Definition YI (y : system) : Prop :=
  (forall k, In k (data_seqs (c_hist (y_client y))) -> In (makePingName co k) (answered_names y)) /\
  (forall d, In d (answers (s_hist (y_server y))) -> exists k, u64 k /\ d = pong so (ping_interest co k)) /\
  N.of_nat (length (answers (s_hist (y_server y)))) = s_nPings (y_server y) /\
  (forall k, In k (sent_seqs (c_hist (y_client y))) -> u64 k) /\
  (forall k, In k (c_pending (y_client y)) -> u64 k).

Lemma answer_data k x s : incl (data_seqs (c_hist (c_answer k x s))) (data_seqs (c_hist s) ++ data_seqs [x]).
Proof.
  unfold c_answer. destruct (existsb _ _); [|apply incl_appl, incl_refl].
  unfold c_finish, c_emit. cbn. destruct (_ >=? 0); cbn; rewrite !data_app; cbn; rewrite ?app_nil_r; apply incl_refl.
Qed.
Lemma perform_data s : data_seqs (c_hist (performPing co s)) = data_seqs (c_hist s).
Proof.
  unfold performPing. destruct (negb _); cbn; [rewrite data_app; cbn; apply app_nil_r|].
  destruct (_ || _); cbn; [rewrite data_app; cbn; apply app_nil_r|].
  unfold c_finish. cbn. destruct (_ >=? 0); cbn; rewrite !data_app; cbn; rewrite !app_nil_r; reflexivity.
Qed.

Lemma s_step_answers s i : exists l, answers (s_hist (s_step so s (SeInterest i))) = answers (s_hist s) ++ l /\
  s_nPings (s_step so s (SeInterest i)) = (s_nPings s + N.of_nat (length l))%N /\ (l = [] \/ l = [pong so i]).
Proof.
  cbn [s_step]. destruct (s_active s && _).
  - exists [pong so i]. unfold onInterest. cbn zeta. destruct (_ && _); cbn; rewrite !answers_app; cbn; rewrite ?app_nil_r; auto.
  - exists []. rewrite app_nil_r. cbn. split; [reflexivity|]. split; [lia|auto].
Qed.

Lemma yi_run es : YI (y_run digest co so es).
Proof.
  induction es as [|e es IH] using rev_ind.
  - unfold y_run. cbn [fold_left]. split; [|split; [|split; [reflexivity|]]].
    + unfold g_start. cbn [y_client]. rewrite perform_data. intros k [].
    + intros d [].
    + pose proof (ci_start co Hopt) as HI. pose proof (sent_u64 co Hopt []) as Hu. split.
      * exact Hu.
      * intros k Hk. apply Hu. destruct HI. eapply Permutation_in; [apply Permutation_sym, ci_perm0|]. apply in_or_app. now left.
  - destruct (y_client_run (es ++ [e])) as (ges & Eges).
    assert (Hu1 : forall k, In k (sent_seqs (c_hist (y_client (y_run digest co so (es ++ [e]))))) -> u64 k)
      by (rewrite Eges; exact (sent_u64 co Hopt ges)).
    assert (Hu2 : forall k, In k (c_pending (y_client (y_run digest co so (es ++ [e])))) -> u64 k).
    { intros k Hk. apply Hu1. rewrite Eges in *. destruct (ci_run co Hopt ges).
      eapply Permutation_in; [apply Permutation_sym, ci_perm0|]. apply in_or_app. now left. }
    unfold YI. cut ((forall k, In k (data_seqs (c_hist (y_client (y_run digest co so (es ++ [e]))))) -> In (makePingName co k) (answered_names (y_run digest co so (es ++ [e])))) /\
      (forall d, In d (answers (s_hist (y_server (y_run digest co so (es ++ [e]))))) -> exists k, u64 k /\ d = pong so (ping_interest co k)) /\
      N.of_nat (length (answers (s_hist (y_server (y_run digest co so (es ++ [e])))))) = s_nPings (y_server (y_run digest co so (es ++ [e])))); [tauto|].
    clear Hu1 Hu2 Eges ges.
    unfold y_run in *. rewrite fold_left_app. cbn [fold_left]. set (y := fold_left _ es _) in *.
    destruct IH as (Y1 & Y2 & Y3 & Y4 & Y5).
    destruct e as [e|k|k rtt]; cbn [y_step].
    + assert (D : forall e', (forall k r, e' <> GeData k r) -> incl (data_seqs (c_hist (g_step co (y_client y) e'))) (data_seqs (c_hist (y_client y)))).
      { intros e' He'. destruct e' as [|k r|k r|k| |]; cbn [g_step].
        - destruct (c_timer _); [rewrite perform_data|]; apply incl_refl.
        - now destruct (He' k r).
        - eapply incl_tran; [apply answer_data|]. cbn. rewrite app_nil_r. apply incl_refl.
        - eapply incl_tran; [apply answer_data|]. cbn. rewrite app_nil_r. apply incl_refl.
        - destruct (c_cancelled _); apply incl_refl.
        - apply incl_refl. }
      destruct e; try (split; [|split]; [|exact Y2|exact Y3]; intros j Hj; cbn [y_client] in Hj; apply D in Hj; [|discriminate];
                       exact (Y1 j Hj)).
      split; [exact Y1|]. split; [exact Y2|exact Y3].
    + destruct (nth_error _ k) as [sq|] eqn:E; [|split; [exact Y1|split; [exact Y2|exact Y3]]].
      apply nth_error_In in E. destruct (s_step_answers (y_server y) (ping_interest co sq)) as (l & L1 & L2 & L3).
      unfold answered_names in *. cbn [y_client y_server]. rewrite L1, L2, map_app, app_length. split; [|split].
      * intros j Hj. apply in_or_app. left. now apply Y1.
      * intros d Hd. apply in_app_or in Hd. destruct Hd as [Hd|Hd]; [now apply Y2|].
        destruct L3 as [->| ->]; [contradiction|]. destruct Hd as [<-|[]]. exists sq. split; [now apply Y4|reflexivity].
      * lia.
    + destruct (nth_error _ k) as [d|] eqn:E; [|split; [exact Y1|split; [exact Y2|exact Y3]]].
      apply nth_error_In in E. unfold answered_names in *. cbn [y_client y_server]. split; [|split; [exact Y2|exact Y3]].
      destruct (Y2 d E) as (j & Hj & ->).
      assert (G : forall l s, (forall i, In i l -> i = j) ->
         (forall i, In i (data_seqs (c_hist s)) -> In (makePingName co i) (map k_name (answers (s_hist (y_server y))))) ->
         forall i, In i (data_seqs (c_hist (fold_left (fun s seq => g_step co s (GeData seq rtt)) l s))) ->
                   In (makePingName co i) (map k_name (answers (s_hist (y_server y))))).
      { clear - E. induction l as [|a l IHl]; intros s Hl Hs i Hi; cbn [fold_left] in Hi; [now apply Hs|].
        apply IHl in Hi; [exact Hi|intros; apply Hl; now right|].
        intros i' Hi'. cbn [g_step] in Hi'. apply answer_data in Hi'. apply in_app_or in Hi'. destruct Hi' as [Hi'|Hi']; [now apply Hs|].
        cbn in Hi'. destruct Hi' as [<-|[]]. rewrite (Hl a) by now left.
        apply in_map_iff. exists (pong so (ping_interest co j)). split; [reflexivity|exact E]. }
      apply G; [|exact Y1]. intros i Hi. unfold satisfied in Hi. apply filter_In in Hi. destruct Hi as [Hi1 Hi2].
      apply pong_satisfies in Hi2; [tauto|exact Hj|now apply Y5].
Qed.

Lemma received_le_answered es :
  let y := y_run digest co so es in
  Z.of_nat (length (sent_seqs (c_hist (y_client y)))) <= 18446744073709551616 ->
  n_received (counters_of (c_hist (y_client y))) <= Z.of_N (s_nPings (y_server y)).
Proof.
  intros y Hb. destruct (yi_run es) as (Y1 & _ & Y3 & Y4 & _). fold y in Y1, Y3, Y4. rewrite counters_eq. cbn [n_received].
  destruct (y_client_run es) as (ges & Eg). fold y in Eg.
  assert (Hnd : NoDup (data_seqs (c_hist (y_client y)))).
  { rewrite Eg in *. pose proof (sent_nodup co Hopt ges Hb) as Hs. destruct (ci_run co Hopt ges).
    rewrite ci_perm0 in Hs. apply nodup_app_r in Hs. unfold settled_seqs in Hs. now apply nodup_app_l in Hs. }
  assert (Hin : forall k, In k (data_seqs (c_hist (y_client y))) -> u64 k).
  { intros k Hk. apply Y4. rewrite Eg in *. destruct (ci_run co Hopt ges).
    eapply Permutation_in; [apply Permutation_sym, ci_perm0|]. apply in_or_app. right. unfold settled_seqs. apply in_or_app. now left. }
  assert (Hnd' : NoDup (map (makePingName co) (data_seqs (c_hist (y_client y))))).
  { clear Hb Y1 Y3. induction (data_seqs (c_hist (y_client y))) as [|k l IH]; cbn; [constructor|].
    inversion_clear Hnd. constructor.
    - intros Hx. apply in_map_iff in Hx. destruct Hx as (j & Ej & Hj).
      apply ping_name_inj in Ej; [subst j; contradiction|apply Hin; now right|apply Hin; now left].
    - apply IH; [assumption|intros; apply Hin; now right]. }
  assert (Hincl : incl (map (makePingName co) (data_seqs (c_hist (y_client y)))) (answered_names y)).
  { intros x Hx. apply in_map_iff in Hx. destruct Hx as (k & <- & Hk). now apply Y1. }
  pose proof (NoDup_incl_length Hnd' Hincl) as Hl. unfold answered_names in Hl. rewrite !map_length in Hl. lia.
Qed.
End System.
