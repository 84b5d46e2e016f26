(** Proofs about ndnpingserver as a program. *)
From Verif Require Import Base TlvModel TlvProofs PingModel PeekModel PeekPokeModel PutchunksModel DumpModel PeekRunModel DissectSpec DissectProofs PeekRunProofs ServeSpec ServeProofs ServerRunModel ServerRunSpec.
From Coq Require Import String List Lia ZArith.
Import ListNotations.
Local Open Scope Z_scope.
Local Open Scope list_scope.

Lemma unlines3 k l m : unlines [k; l; m] = k ++ nl ++ l ++ nl ++ m ++ nl.
Proof. change [k; l; m] with ([k] ++ [l; m]). rewrite unlines_app, unlines1, unlines2. now rewrite <- !app_assoc. Qed.
Local Opaque str unlines to_string.

Section P.
Variable sign : packet -> list N * list N.
Variable name_uri : name -> text.
Variable comp_uri : component -> text.
Variable stamp : Z -> text.
Variable put_error : text.
Variable a : server_args.
Variable n : name.
Hypothesis Hmax : 0 <= va_max a.
Hypothesis Hsize : 0 <= va_size a.
Notation o := (SOpts n (va_fresh a) (Z.to_N (va_max a)) (Z.to_nat (va_size a))).
Notation stepf := (vr_step sign comp_uri stamp put_error o a).
Notation SERVING := (serving sign name_uri comp_uri stamp put_error a n).
Notation STOPPING := (stopping name_uri n).

Lemma frozen es : forall r, vr_failed r <> None \/ vr_ended r = true -> fold_left stepf es r = r.
Proof.
  induction es as [|e es IH]; intros r H; [reflexivity|]. cbn [fold_left].
  assert (stepf r e = r) as ->; [|now apply IH].
  unfold vr_step. destruct (vr_failed r) eqn:F; [reflexivity|]. destruct H as [H|H]; [congruence|]. now rewrite H.
Qed.

Lemma for_server_iff i : is_prefix_of (s_prefix o ++ [ping_comp]) (i_name i) = true <-> for_server n i.
Proof.
  rewrite is_prefix_of_spec. unfold for_server. cbn [s_prefix]. split; intros [c H]; exists c; rewrite H.
  - now rewrite <- app_assoc.
  - now rewrite <- app_assoc.
Qed.
Lemma pong_reply i : reply a i (pong o i).
Proof.
  split; [reflexivity|]. split; [reflexivity|]. split; [reflexivity|]. cbn [pong k_content s_size]. split.
  - rewrite repeat_length. lia.
  - intros c H. now rewrite (repeat_spec _ _ _ H).
Qed.
Lemma fits_iff d : data_fits sign d = true <-> short_enough sign d.
Proof. rewrite data_fits_size. apply N.leb_le. Qed.
Lemma line_reported t i : for_server n i -> reported comp_uri stamp a t i (vr_line comp_uri stamp a t i).
Proof.
  intros [rest H]. unfold reported.
  assert (X : i_name i <> []) by (rewrite H; destruct n; discriminate).
  destruct (exists_last X) as (front & c & E). exists front, c. split; [exact E|].
  unfold vr_line, last_comp. rewrite E, rev_app_distr. cbn [rev app].
  destruct (va_quiet a); [reflexivity|]. destruct (va_timestamp a); rewrite unlines1; cbn [app]; rewrite <- ?app_assoc; [f_equal|reflexivity].
Qed.

Lemma stopping_run es : forall k w h sent out,
  exists ot e x, STOPPING k w es ot e x /\
    vr_result (name_uri n) (fold_left stepf es (ServerRunning (Server k false h) w sent out None)) = ServerResult sent (out ++ ot) e x.
Proof.
  assert (D : forall k h sent out, vr_result (name_uri n) (ServerRunning (Server k false h) false sent out None) =
    ServerResult sent (out ++ farewell name_uri n k) [] (VExited 0)).
  { intros. cbn. unfold farewell. rewrite unlines3. cbn [app]. now rewrite <- !app_assoc. }
  induction es as [|[t e] es IH]; intros k w h sent out.
  - destruct w.
    + exists [], [], VRunning. split; [constructor|]. cbn. now rewrite app_nil_r.
    + exists (farewell name_uri n k), [], (VExited 0). split; [constructor|]. apply D.
  - destruct w.
    2: { exists (farewell name_uri n k), [], (VExited 0). split; [constructor|]. rewrite frozen by (right; reflexivity). apply D. }
    cbn [fold_left]. destruct e as [i| | |reason|what]; unfold vr_step at 2; cbn.
    + destruct (IH k true h sent out) as (ot & e & x & H1 & H2). exists ot, e, x. split; [now apply Vs_ignored|exact H2].
    + destruct (IH k true h sent out) as (ot & e & x & H1 & H2). exists ot, e, x. split; [now apply Vs_again|exact H2].
    + exists (farewell name_uri n k), [], (VExited 0). split; [apply Vs_registered|]. rewrite frozen by (right; reflexivity). apply D.
    + exists [], (not_registered reason), (VExited 1). split; [apply Vs_not_registered|]. rewrite frozen by (left; discriminate).
      cbn. unfold not_registered, error_line. now rewrite unlines1, app_nil_r, <- !app_assoc.
    + exists [], (error_line what), (VExited 1). split; [apply Vs_fails|]. rewrite frozen by (left; discriminate).
      cbn. unfold error_line. now rewrite unlines1, app_nil_r, <- !app_assoc.
Qed.

Lemma serving_run es : forall k w h sent out, va_max a = 0 \/ Z.of_N k < va_max a ->
  exists s ot e x, SERVING k w es s ot e x /\
    vr_result (name_uri n) (fold_left stepf es (ServerRunning (Server k true h) w sent out None)) = ServerResult (sent ++ s) (out ++ ot) e x.
Proof.
  induction es as [|[t e] es IH]; intros k w h sent out K.
  - exists [], [], [], VRunning. split; [constructor|]. cbn. now rewrite !app_nil_r.
  - cbn [fold_left]. destruct e as [i| | |reason|what]; unfold vr_step at 2; cbn [vr_failed vr_ended vr_server vr_waiting s_active negb andb snd fst].
    + destruct (is_prefix_of (s_prefix o ++ [ping_comp]) (i_name i)) eqn:P.
      2: { destruct (IH k w h sent out K) as (s & ot & e & x & H1 & H2). exists s, ot, e, x. split; [|exact H2].
           apply Vr_foreign; [|exact H1]. intros Q. apply for_server_iff in Q. congruence. }
      apply for_server_iff in P. pose proof (pong_reply i) as R. pose proof (line_reported t i P) as L.
      unfold vr_interest. cbn [vr_out vr_server vr_waiting vr_sent]. destruct (data_fits sign (pong o i)) eqn:F.
      2: { exists [], (vr_line comp_uri stamp a t i), (error_line put_error), (VExited 1). split.
           - apply Vr_too_long with (pong o i); auto. intros X. apply fits_iff in X. congruence.
           - rewrite frozen by (left; discriminate). cbn. unfold error_line. now rewrite unlines1, app_nil_r, <- !app_assoc. }
      apply fits_iff in F. unfold onInterest. cbn [s_nPings s_nMax s_active s_hist].
      destruct (_ && _) eqn:M.
      * apply andb_prop in M. destruct M as [M1 M2]. apply N.ltb_lt in M1. apply N.eqb_eq in M2.
        match goal with |- context [Server (k + 1) false ?h'] => destruct (stopping_run es (k + 1)%N w h' (sent ++ [(t, pong o i)]) (out ++ vr_line comp_uri stamp a t i)) as (ot & e & x & H1 & H2) end.
        exists [(t, pong o i)], (vr_line comp_uri stamp a t i ++ ot), e, x. split.
        { apply Vr_last; auto; lia. }
        rewrite H2. now rewrite <- app_assoc.
      * assert (K' : va_max a = 0 \/ Z.of_N (k + 1) < va_max a).
        { apply andb_false_iff in M. destruct M as [M|M]; [apply N.ltb_ge in M; lia|apply N.eqb_neq in M; lia]. }
        match goal with |- context [Server (k + 1) true ?h'] => destruct (IH (k + 1)%N w h' (sent ++ [(t, pong o i)]) (out ++ vr_line comp_uri stamp a t i) K') as (s & ot & e & x & H1 & H2) end.
        exists ((t, pong o i) :: s), (vr_line comp_uri stamp a t i ++ ot), e, x. split.
        { apply Vr_answers; auto. destruct K' as [|K']; [now left|right; lia]. }
        rewrite H2. now rewrite <- !app_assoc.
    + cbn [s_step s_nPings s_hist]. destruct (stopping_run es k w h sent out) as (ot & e & x & H1 & H2).
      exists [], ot, e, x. split; [now apply Vr_interrupt|]. now rewrite app_nil_r.
    + destruct (IH k false h sent out K) as (s & ot & e & x & H1 & H2). exists s, ot, e, x. split; [now apply Vr_registered|exact H2].
    + destruct w.
      * exists [], [], (not_registered reason), (VExited 1). split; [apply Vr_not_registered|]. rewrite frozen by (left; discriminate).
        cbn. unfold not_registered, error_line. now rewrite unlines1, !app_nil_r, <- !app_assoc.
      * destruct (IH k false h sent out K) as (s & ot & e & x & H1 & H2). exists s, ot, e, x. split; [now apply Vr_no_matter|exact H2].
    + exists [], [], (error_line what), (VExited 1). split; [apply Vr_fails|]. rewrite frozen by (left; discriminate).
      cbn. unfold error_line. now rewrite unlines1, !app_nil_r, <- !app_assoc.
Qed.
End P.

Section Q.
Variable sign : packet -> list N * list N.
Variable parse_name : text -> option name.
Variable name_uri : name -> text.
Variable comp_uri : component -> text.
Variable usage version : text.
Variable stamp : Z -> text.
Variable start_error : Z -> bool.
Variable put_error : text.

Theorem server_program_spec cmd es :
  server_behaves sign parse_name name_uri comp_uri usage version stamp start_error put_error es cmd
    (server_program sign parse_name name_uri comp_uri usage version stamp start_error put_error cmd es).
Proof.
  assert (U : forall what, str "ERROR: " ++ what ++ nl ++ nl ++ usage = with_usage usage what).
  { intros. unfold with_usage. rewrite unlines2. cbn [app]. now rewrite <- !app_assoc. }
  assert (E : forall what, str "ERROR: " ++ what ++ nl = error_line what).
  { intros. unfold error_line. now rewrite unlines1, <- app_assoc. }
  destruct cmd as [what|a]; cbn -[server_go].
  - rewrite U. apply Vb_wrong.
  - destruct (va_help a) eqn:Hh; [now apply Vb_help|]. destruct (va_version a) eqn:Hv; [now apply Vb_version|].
    destruct (va_prefix a) as [|ch p] eqn:Hp; [rewrite U; now apply Vb_no_prefix|].
    assert (Hp' : va_prefix a <> []) by congruence. rewrite <- Hp.
    destruct (parse_name (va_prefix a)) as [n|] eqn:Hn; [|now apply Vb_bad_name].
    destruct (Z.ltb_spec (va_fresh a) 0). { rewrite E. apply Vb_complaint with n; auto. now apply Vc_fresh. }
    destruct (Z.ltb_spec (va_max a) 0). { rewrite E. apply Vb_complaint with n; auto. now apply Vc_max. }
    destruct (Z.ltb_spec (va_size a) 0). { rewrite E. apply Vb_complaint with n; auto. now apply Vc_size. }
    unfold server_go. destruct (start_error (va_size a)) eqn:Hs; [now apply Vb_no_start with n|].
    destruct (serving_run sign name_uri comp_uri stamp put_error a n H0 H1 es 0 true [] [] (str "PING SERVER " ++ name_uri n ++ nl)) as (s & ot & e & x & R1 & R2).
    { cbn. lia. }
    rewrite R2. cbn [app]. replace (str "PING SERVER " ++ name_uri n ++ nl) with (unlines [str "PING SERVER " ++ name_uri n]) by (now rewrite unlines1, <- app_assoc).
    now apply Vb_run.
Qed.

Notation SERVING := (serving sign name_uri comp_uri stamp put_error).
Notation STOPPING := (stopping name_uri).
Notation BEHAVES := (server_behaves sign parse_name name_uri comp_uri usage version stamp start_error put_error).

Lemma stopping_farewell n k w es o e x : STOPPING n k w es o e x -> x = VExited 0 -> o = farewell name_uri n k /\ e = [].
Proof. induction 1; intros X; try discriminate; auto. Qed.
Lemma serving_sent a n k w es s o e x : SERVING a n k w es s o e x ->
  forall t d, In (t, d) s -> exists i, In (t, VInterest i) es /\ for_server n i /\ reply a i d /\ short_enough sign d.
Proof.
  induction 1; intros t' d' I; try contradiction.
  - destruct (IHserving t' d' I) as (j & J1 & J2). exists j. split; [now right|exact J2].
  - destruct I as [[= <- <-]|I].
    + exists i. split; [now left|]. auto.
    + destruct (IHserving t' d' I) as (j & J1 & J2). exists j. split; [now right|exact J2].
  - destruct I as [[= <- <-]|[]]. exists i. split; [now left|]. auto.
  - destruct (IHserving t' d' I) as (j & J1 & J2). exists j. split; [now right|exact J2].
  - destruct (IHserving t' d' I) as (j & J1 & J2). exists j. split; [now right|exact J2].
Qed.
Lemma serving_count a n k w es s o e x : SERVING a n k w es s o e x -> 0 < va_max a -> Z.of_N k < va_max a ->
  Z.of_N k + Z.of_nat (length s) <= va_max a.
Proof.
  induction 1; intros M K; cbn [length]; try (specialize (IHserving M)); lia.
Qed.
Lemma serving_success a n k w es s o e x : SERVING a n k w es s o e x -> x = VExited 0 ->
  e = [] /\ (exists front, o = front ++ farewell name_uri n (k + N.of_nat (length s))) /\
  ((exists t, In (t, VInterrupt) es) \/ (0 < va_max a /\ Z.of_N k + Z.of_nat (length s) = va_max a)).
Proof.
  induction 1; intros X; try discriminate.
  - destruct (IHserving X) as (E & F & [(t' & I)|I]); (split; [exact E|split; [exact F|]]); [left; exists t'; now right|now right].
  - destruct (IHserving X) as (E & (f & F) & C). split; [exact E|]. split.
    + exists (l ++ f). rewrite F, <- app_assoc. replace (k + N.of_nat (length ((t, d) :: s)))%N with (k + 1 + N.of_nat (length s))%N by (cbn [length]; lia). reflexivity.
    + destruct C as [(t' & I)|[C1 C2]]; [left; exists t'; now right|right]. cbn [length]. lia.
  - destruct (stopping_farewell _ _ _ _ _ _ _ H5 X) as [-> ->]. split; [reflexivity|]. split.
    + exists l. reflexivity.
    + right. cbn [length]. lia.
  - destruct (stopping_farewell _ _ _ _ _ _ _ H X) as [-> ->]. split; [reflexivity|]. split.
    + exists []. cbn. now rewrite N.add_0_r.
    + left. exists t. now left.
  - destruct (IHserving X) as (E & F & [(t' & I)|I]); (split; [exact E|split; [exact F|]]); [left; exists t'; now right|now right].
  - destruct (IHserving X) as (E & F & [(t' & I)|I]); (split; [exact E|split; [exact F|]]); [left; exists t'; now right|now right].
Qed.

Lemma behaves_answers es a r : BEHAVES es (inr a) r ->
  forall t d, In (t, d) (vo_sent r) -> exists n i, parse_name (va_prefix a) = Some n /\
    In (t, VInterest i) es /\ for_server n i /\ reply a i d /\ short_enough sign d.
Proof.
  intros B t d. inversion B; subst; cbn [vo_sent]; try contradiction. intros I.
  match goal with H : serving _ _ _ _ _ _ _ _ _ _ _ _ _ _ |- _ => destruct (serving_sent _ _ _ _ _ _ _ _ _ H t d I) as (i & J) end.
  exists n, i. auto.
Qed.
Lemma behaves_limit es a r : BEHAVES es (inr a) r -> 0 < va_max a -> Z.of_nat (length (vo_sent r)) <= va_max a.
Proof.
  intros B M. inversion B; subst; cbn [vo_sent length]; try lia.
  match goal with H : serving _ _ _ _ _ _ _ _ _ _ _ _ _ _ |- _ => pose proof (serving_count _ _ _ _ _ _ _ _ _ H M) as C end. lia.
Qed.
Lemma behaves_success es a r : BEHAVES es (inr a) r -> va_help a = false -> va_version a = false -> vo_end r = VExited 0 ->
  vo_stderr r = [] /\
  (exists front n, parse_name (va_prefix a) = Some n /\ vo_stdout r = front ++ farewell name_uri n (N.of_nat (length (vo_sent r)))) /\
  ((exists t, In (t, VInterrupt) es) \/ (0 < va_max a /\ Z.of_nat (length (vo_sent r)) = va_max a)).
Proof.
  intros B Hh Hv X. inversion B; subst; cbn [vo_end vo_sent vo_stdout vo_stderr] in *; try discriminate; try congruence.
  match goal with H : serving _ _ _ _ _ _ _ _ _ _ _ _ _ _ |- _ => destruct (serving_success _ _ _ _ _ _ _ _ _ H X) as (E & (f & F) & C) end.
  split; [exact E|]. split; [|exact C]. eexists _, n. split; [assumption|]. rewrite F, app_assoc. reflexivity.
Qed.
End Q.
