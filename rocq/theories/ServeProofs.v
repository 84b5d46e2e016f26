(** Sizes of packets; the output and the exit status of ndnpingserver. *)
From Verif Require Import Base BaseFacts TlvModel TlvProofs PingModel PingProofs PeekModel PeekPokeModel PutchunksModel ServeModel ServeSpec DumpModel.
From Coq Require Import String.
From Coq Require Import List.
Import ListNotations.
Local Open Scope list_scope.
Local Open Scope N_scope.

(** * Sizes *)
Lemma be_len k : forall n, List.length (be k n) = k.
Proof. induction k as [|k IH]; intros n; [reflexivity|]. cbn [be]. rewrite app_length, IH. cbn. lia. Qed.
Lemma var_len n : octets (var_number n) = var_size n.
Proof.
  unfold octets, var_number, var_size. destruct (n <? 253); [reflexivity|]. destruct (n <? 65536); [cbn [List.length]; rewrite be_len; reflexivity|].
  destruct (n <? 4294967296); cbn [List.length]; rewrite be_len; reflexivity.
Qed.
Lemma nni_len n : octets (nni n) = number_size n.
Proof.
  unfold octets, nni, number_size. destruct (n <? 256); [now rewrite be_len|]. destruct (n <? 65536); [now rewrite be_len|].
  destruct (n <? 4294967296); now rewrite be_len.
Qed.
Lemma octets_app a b : octets (a ++ b) = octets a + octets b.
Proof. unfold octets. rewrite app_length. lia. Qed.
Lemma tlv_len t v : octets (tlv t v) = elem_size t (octets v).
Proof. unfold tlv. rewrite !octets_app, !var_len. unfold elem_size, octets. lia. Qed.
Lemma name_len (n : name) : octets (flat_map (fun c => tlv (c_type c) (c_value c)) n) = name_size n.
Proof.
  unfold name_size. induction n as [|c n IH]; [reflexivity|]. cbn [flat_map map fold_right]. rewrite octets_app, tlv_len, IH. reflexivity.
Qed.
Lemma octets_repeat x n : octets (repeat x n) = N.of_nat n.
Proof. unfold octets. now rewrite repeat_length. Qed.
Lemma var_pos n : 1 <= var_size n.
Proof. unfold var_size. destruct (n <? 253); [lia|]. destruct (n <? 65536); [lia|]. destruct (n <? 4294967296); lia. Qed.
Lemma var_ge n : 253 <= n -> 3 <= var_size n.
Proof. intros H. unfold var_size. apply N.ltb_ge in H. rewrite H. destruct (n <? 65536); [lia|]. destruct (n <? 4294967296); lia. Qed.
Lemma number_le n : number_size n <= 8.
Proof. unfold number_size. destruct (n <? 256); [lia|]. destruct (n <? 65536); [lia|]. destruct (n <? 4294967296); lia. Qed.
Lemma elem_ge t n : 2 + n <= elem_size t n.
Proof. unfold elem_size. pose proof (var_pos t). pose proof (var_pos n). lia. Qed.
Lemma elem_le t n : (t <? 253) = true -> n < 65536 -> elem_size t n <= 4 + n.
Proof.
  intros T H. unfold elem_size. unfold var_size at 1. rewrite T. unfold var_size. apply N.ltb_lt in H. rewrite H. destruct (n <? 253); lia.
Qed.
Lemma elem_small t n : (t <? 253) = true -> n < 253 -> elem_size t n = 2 + n.
Proof. intros T H. unfold elem_size, var_size. apply N.ltb_lt in H. rewrite T, H. lia. Qed.
Lemma elem_mid t n : (t <? 253) = true -> 253 <= n < 65536 -> elem_size t n = 4 + n.
Proof.
  intros T [H1 H2]. unfold elem_size. unfold var_size at 1. rewrite T. unfold var_size. apply N.ltb_lt in H2. apply N.ltb_ge in H1. rewrite H1, H2. lia.
Qed.
Lemma name_size_app a b : name_size (a ++ b) = name_size a + name_size b.
Proof. unfold name_size. induction a as [|c a IH]; [reflexivity|]. cbn [app map fold_right]. rewrite IH. lia. Qed.
Section Sizes.
Variable sign : packet -> list N * list N.
Definition sig_sizes (d : packet) : N * N := (octets (fst (sign d)), octets (snd (sign d))).
Lemma data_len d : octets (data_wire sign d) = packet_size (fst (sig_sizes d)) (snd (sig_sizes d)) d.
Proof.
  unfold data_wire, packet_size. rewrite tlv_len. f_equal.
  cbn [data_elements flat_map fst snd]. rewrite !octets_app, !tlv_len, name_len, !octets_app. cbn [sig_sizes fst snd].
  change (octets []) with 0.
  replace (octets (if (0 <? k_fresh d)%Z then tlv TFreshness (nni (Z.to_N (k_fresh d))) else [])) with
    (if (0 <? k_fresh d)%Z then elem_size 25 (number_size (Z.to_N (k_fresh d))) else 0).
  2: { destruct (0 <? k_fresh d)%Z; [now rewrite tlv_len, nni_len|reflexivity]. }
  replace (octets match k_fbi d with Some c => tlv TFinalBlockId (tlv (c_type c) (c_value c)) | None => [] end) with
    (match k_fbi d with Some c => elem_size 26 (comp_size c) | None => 0 end).
  2: { destruct (k_fbi d); [rewrite tlv_len, tlv_len; reflexivity|reflexivity]. }
  unfold TName, TMetaInfo, TContent, TSignatureInfo, TSignatureValue. lia.
Qed.
Lemma data_fits_size d : data_fits sign d = (packet_size (fst (sig_sizes d)) (snd (sig_sizes d)) d <=? max_packet).
Proof.
  rewrite <- data_len. unfold data_fits, octets, max_packet. change (8 * 1100)%nat with (N.to_nat 8800).
  destruct (N.leb_spec (N.of_nat (List.length (data_wire sign d))) 8800) as [H|H].
  - apply Nat.leb_le. lia.
  - apply Nat.leb_gt. lia.
Qed.
End Sizes.

(** * ndnpingserver *)
Section PingServer.
Variable sign : packet -> list N * list N.
Variable name_uri : name -> text.
Variable comp_uri : component -> text.
Variable o : sopts.
Variable quiet : bool.
Notation run := (ps_run sign name_uri comp_uri o quiet).
Notation step := (ps_step sign comp_uri o quiet).
Notation line := (seq_line comp_uri quiet).
Notation ans := (answerable (sig_sizes sign) o).
Notation good := (up_to_long (sig_sizes sign) o).
Notation header := (str "PING SERVER " ++ name_uri (s_prefix o) ++ newline).

Lemma fits_ans i : data_fits sign (pong o i) = ans i.
Proof. rewrite data_fits_size. reflexivity. Qed.
Lemma run_snoc es e : run (es ++ [e]) = step (run es) e.
Proof. unfold ps_run. rewrite fold_left_app. reflexivity. Qed.

Lemma before_snoc es e : before_interrupt (es ++ [e]) =
  before_interrupt es ++ (if interrupted es then [] else match e with PsInterrupt => [] | _ => [e] end).
Proof.
  induction es as [|x es IH]; [destruct e; reflexivity|].
  destruct x; cbn [app before_interrupt interrupted existsb orb]; try reflexivity; rewrite IH; reflexivity.
Qed.
Definition new (es : list psevent) (e : psevent) : list interest :=
  if interrupted es then []
  else match e with PsInterest i => if is_prefix_of (s_prefix o ++ [ping_comp]) (i_name i) then [i] else [] | _ => [] end.
Lemma arriving_snoc es e : arriving o (es ++ [e]) = arriving o es ++ new es e.
Proof.
  unfold arriving, new. rewrite before_snoc, flat_map_app. f_equal. destruct (interrupted es); [reflexivity|].
  destruct e; cbn [flat_map]; rewrite ?app_nil_r; reflexivity.
Qed.
Lemma taken_snoc es e : taken o (es ++ [e]) = taken o es ++ (if limit_reached o es then [] else new es e).
Proof.
  unfold taken, limit_reached. rewrite arriving_snoc. destruct (N.eqb_spec (s_nMax o) 0) as [E|E].
  - rewrite E. reflexivity.
  - replace (0 <? s_nMax o) with true by (symmetry; apply N.ltb_lt; lia). cbn [andb]. rewrite firstn_app. f_equal.
    destruct (N.leb_spec (s_nMax o) (N.of_nat (List.length (arriving o es)))) as [H|H].
    + replace (N.to_nat (s_nMax o) - List.length (arriving o es))%nat with 0%nat by lia. reflexivity.
    + apply firstn_all2. unfold new. destruct (interrupted es); [cbn; lia|]. destruct e; cbn; try lia. destruct (is_prefix_of _ _); cbn; lia.
Qed.
Lemma good_all l : List.length (good l) = List.length l <-> forallb ans l = true.
Proof.
  induction l as [|i l IH]; [now split|]. cbn [up_to_long forallb]. destruct (ans i); cbn [List.length andb].
  - rewrite <- IH. split; lia.
  - split; discriminate.
Qed.
Lemma good_le l : (List.length (good l) <= List.length l)%nat.
Proof. induction l as [|i l IH]; cbn [up_to_long]; [lia|]. destruct (ans i); cbn [List.length]; lia. Qed.
Lemma good_full l : forallb ans l = true -> good l = l.
Proof. induction l as [|i l IH]; cbn [up_to_long forallb]; [reflexivity|]. destruct (ans i); [|discriminate]. cbn. intros H. now rewrite IH. Qed.
Lemma good_app_bad l m : forallb ans l = false -> good (l ++ m) = good l.
Proof. induction l as [|i l IH]; cbn [up_to_long forallb app]; [discriminate|]. destruct (ans i); [|reflexivity]. cbn. intros H. now rewrite IH. Qed.
Lemma good_app_good l m : forallb ans l = true -> good (l ++ m) = l ++ good m.
Proof. induction l as [|i l IH]; cbn [up_to_long forallb app]; [reflexivity|]. destruct (ans i); [|discriminate]. cbn. intros H. now rewrite IH. Qed.

Lemma taken_length es : s_nMax o <> 0 -> List.length (taken o es) = Nat.min (N.to_nat (s_nMax o)) (List.length (arriving o es)).
Proof. intros H. unfold taken. apply N.eqb_neq in H. rewrite H. apply firstn_length. Qed.
Lemma limit_taken es : limit_reached o es = (0 <? s_nMax o) && (s_nMax o <=? N.of_nat (List.length (taken o es))).
Proof.
  unfold limit_reached. destruct (N.ltb_spec 0 (s_nMax o)) as [H|H]; [|reflexivity]. cbn [andb]. rewrite taken_length by lia.
  apply Bool.eq_iff_eq_true. rewrite !N.leb_le. lia.
Qed.

Record Inv (es : list psevent) (s : pserver) : Prop := {
  I_failed : ps_failed s = negb (forallb ans (taken o es));
  I_answers : answers (s_hist (ps_server s)) = map (ping_answer o) (good (taken o es));
  I_n : s_nPings (ps_server s) = N.of_nat (List.length (good (taken o es)));
  I_active : ps_failed s = false -> s_active (ps_server s) = negb (interrupted es) && negb (limit_reached o es);
  I_waiting : ps_failed s = false -> ps_waiting s = negb (registered es);
  I_out : ps_out s = header ++ flat_map line (firstn (S (List.length (good (taken o es)))) (taken o es))
}.
Lemma interrupted_snoc es e : interrupted (es ++ [e]) = interrupted es || match e with PsInterrupt => true | _ => false end.
Proof. unfold interrupted. rewrite existsb_app. cbn. now rewrite orb_false_r. Qed.
Lemma registered_snoc es e : registered (es ++ [e]) = registered es || match e with PsRegSuccess => true | _ => false end.
Proof. unfold registered. rewrite existsb_app. cbn. now rewrite orb_false_r. Qed.

Lemma inv_run es : ~ In PsRegFailure es -> Inv es (run es).
Proof.
  induction es as [|e es IH] using rev_ind; intros Hn.
  { assert (E : taken o [] = []) by (unfold taken; cbn; destruct (s_nMax o =? 0); [reflexivity|apply firstn_nil]).
    assert (L : limit_reached o [] = false).
    { unfold limit_reached. cbn. destruct (N.ltb_spec 0 (s_nMax o)); [|reflexivity]. apply N.leb_gt. exact H. }
    split; rewrite ?E, ?L; cbn; try reflexivity. now rewrite app_nil_r. }
  assert (Hn' : ~ In PsRegFailure es) by (intros H; apply Hn, in_or_app; now left).
  assert (He : e <> PsRegFailure) by (intros ->; apply Hn, in_or_app; right; now left).
  destruct (IH Hn') as [F A M AC WA O]. clear IH Hn Hn'. rewrite run_snoc. set (s := run es) in *. unfold ps_step.
  destruct (ps_failed s) eqn:Ef.
  { (* already failed *)
    symmetry in F. apply negb_true_iff in F.
    assert (G : good (taken o (es ++ [e])) = good (taken o es)) by (rewrite taken_snoc; now apply good_app_bad).
    assert (L : (List.length (good (taken o es)) < List.length (taken o es))%nat).
    { pose proof (good_le (taken o es)). assert (List.length (good (taken o es)) <> List.length (taken o es)); [|lia].
      intros H1. apply good_all in H1. congruence. }
    split; rewrite ?G; auto; try congruence.
    - rewrite taken_snoc, forallb_app, F, Ef. reflexivity.
    - rewrite O. f_equal. f_equal. rewrite taken_snoc, firstn_app.
      replace (S (List.length (good (taken o es))) - List.length (taken o es))%nat with 0%nat by lia. cbn [firstn]. now rewrite app_nil_r. }
  symmetry in F. apply negb_false_iff in F. specialize (AC eq_refl). specialize (WA eq_refl).
  assert (G : good (taken o es) = taken o es) by now apply good_full.
  assert (O1 : ps_out s = header ++ flat_map line (taken o es)).
  { rewrite O, G. now rewrite firstn_all2 by lia. }
  rewrite G in *. clear O.
  assert (Same : forall s', (forall i, e = PsInterest i -> new es e = []) ->
    ps_failed s' = false -> s_hist (ps_server s') = s_hist (ps_server s) -> s_nPings (ps_server s') = s_nPings (ps_server s) ->
    s_active (ps_server s') = negb (interrupted (es ++ [e])) && negb (limit_reached o es) ->
    ps_waiting s' = negb (registered (es ++ [e])) -> ps_out s' = ps_out s -> Inv (es ++ [e]) s').
  { intros s' Hnew E1 E2 E3 E4 E5 E6.
    assert (N0 : new es e = []) by (destruct e; [apply (Hnew i eq_refl)| | |]; unfold new; now destruct (interrupted es)).
    assert (T : taken o (es ++ [e]) = taken o es) by (rewrite taken_snoc, N0; destruct (limit_reached o es); apply app_nil_r).
    assert (LR : limit_reached o (es ++ [e]) = limit_reached o es) by (rewrite !limit_taken, T; reflexivity).
    split; rewrite ?T, ?LR, ?G; auto.
    - now rewrite F.
    - now rewrite E2.
    - now rewrite E3.
    - now rewrite E6, O1, firstn_all2 by lia. }
  destruct e as [i| | |]; [|..].
  - (* an Interest *)
    rewrite AC. destruct (interrupted es) eqn:Ei; cbn [negb andb].
    { apply Same; auto.
      - intros j _. unfold new. now rewrite Ei.
      - rewrite interrupted_snoc, Ei. exact AC.
      - now rewrite registered_snoc, orb_false_r. }
    destruct (limit_reached o es) eqn:El; cbn [negb andb].
    { (* nothing more is taken *)
      assert (T : taken o (es ++ [PsInterest i]) = taken o es) by (rewrite taken_snoc, El; apply app_nil_r).
      assert (LR : limit_reached o (es ++ [PsInterest i]) = true) by (rewrite limit_taken, T, <- limit_taken; exact El).
      split; rewrite ?T, ?LR, ?G; auto.
      - now rewrite F, Ef.
      - intros _. now rewrite interrupted_snoc, Ei.
      - intros _. rewrite registered_snoc, orb_false_r. exact WA.
      - now rewrite O1, firstn_all2 by lia. }
    destruct (is_prefix_of (s_prefix o ++ [ping_comp]) (i_name i)) eqn:Ep.
    2: { apply Same; auto.
      - intros j _. unfold new. now rewrite Ei, Ep.
      - rewrite interrupted_snoc, Ei. exact AC.
      - now rewrite registered_snoc, orb_false_r. }
    assert (T : taken o (es ++ [PsInterest i]) = taken o es ++ [i]) by (rewrite taken_snoc, El; unfold new; rewrite Ei, Ep; reflexivity).
    unfold ps_onInterest. rewrite fits_ans.
    destruct (ans i) eqn:Ea.
    + assert (G' : good (taken o es ++ [i]) = taken o es ++ [i]) by (apply good_full; rewrite forallb_app, F; cbn; now rewrite Ea).
      unfold onInterest. cbv zeta.
      assert (LR : limit_reached o (es ++ [PsInterest i]) = (0 <? s_nMax o) && (s_nMax o =? s_nPings (ps_server s) + 1)).
      { rewrite limit_taken, T, M, app_length. cbn [List.length]. rewrite limit_taken in El.
        destruct (0 <? s_nMax o); [|reflexivity]. cbn [andb] in *. apply N.leb_gt in El. apply Bool.eq_iff_eq_true.
        rewrite N.leb_le, N.eqb_eq. lia. }
      split; rewrite ?T, ?G'; cbn [ps_failed ps_server ps_waiting ps_out].
      * rewrite forallb_app, F. cbn. now rewrite Ea.
      * match goal with |- context [if ?b then _ else _] => destruct b end; cbn [s_hist]; rewrite ?answers_app, A, map_app; cbn; rewrite ?app_nil_r; reflexivity.
      * rewrite app_length. cbn [List.length]. match goal with |- context [if ?b then _ else _] => destruct b end; cbn [s_nPings]; rewrite M; lia.
      * intros _. rewrite interrupted_snoc, Ei, LR. match goal with |- context [if ?b then _ else _] => destruct b end; cbn [s_active]; rewrite ?AC; reflexivity.
      * intros _. rewrite registered_snoc, orb_false_r. exact WA.
      * rewrite O1, firstn_all2 by lia. rewrite flat_map_app. cbn [flat_map]. now rewrite app_nil_r, <- !app_assoc.
    + assert (B : forallb ans (taken o es ++ [i]) = false) by (rewrite forallb_app, F; cbn; now rewrite Ea).
      assert (G' : good (taken o es ++ [i]) = taken o es) by (rewrite good_app_good by exact F; cbn; rewrite Ea; apply app_nil_r).
      split; rewrite ?T, ?G'; cbn [ps_failed ps_server ps_waiting ps_out]; auto; try discriminate.
      * now rewrite B.
      * rewrite O1, firstn_all2 by (rewrite app_length; cbn; lia). rewrite flat_map_app. cbn [flat_map]. now rewrite app_nil_r, <- !app_assoc.
  - apply Same; cbn [ps_failed ps_server ps_waiting ps_out s_step s_hist s_nPings s_active]; auto; try discriminate.
    + rewrite interrupted_snoc, orb_true_r. reflexivity.
    + now rewrite registered_snoc, orb_false_r.
  - apply Same; cbn [ps_failed ps_server ps_waiting ps_out]; auto; try discriminate.
    + now rewrite interrupted_snoc, orb_false_r.
    + rewrite registered_snoc, orb_true_r. reflexivity.
  - congruence.
Qed.

Theorem server_program es : ~ In PsRegFailure es ->
  let s := run es in let T := taken o es in let G := good T in
  answers (s_hist (ps_server s)) = map (ping_answer o) G /\
  ps_status s = (if Nat.ltb (List.length G) (List.length T) then Some 1%Z
                 else if registered es && (interrupted es || limit_reached o es) then Some 0%Z else None) /\
  ps_stdout name_uri o s =
    header ++ flat_map line (firstn (S (List.length G)) T) ++
    (if Nat.ltb (List.length G) (List.length T) then []
     else if registered es && (interrupted es || limit_reached o es) then
       newline ++ str "--- " ++ name_uri (s_prefix o) ++ str " ping server statistics ---" ++ newline ++
       to_string (N.of_nat (List.length T)) ++ str " packets processed" ++ newline
     else []).
Proof.
  intros Hn. cbv zeta. destruct (inv_run es Hn) as [F A M AC WA O].
  split; [exact A|].
  assert (St : ps_status (run es) = (if Nat.ltb (List.length (good (taken o es))) (List.length (taken o es)) then Some 1%Z
                 else if registered es && (interrupted es || limit_reached o es) then Some 0%Z else None)).
  { unfold ps_status. rewrite F. destruct (forallb ans (taken o es)) eqn:E; cbn [negb].
    - rewrite (proj2 (good_all (taken o es)) E), Nat.ltb_irrefl.
      rewrite AC, WA by (now rewrite F). destruct (registered es), (interrupted es), (limit_reached o es); reflexivity.
    - replace (Nat.ltb _ _) with true; [reflexivity|]. symmetry. apply Nat.ltb_lt.
      pose proof (good_le (taken o es)). assert (List.length (good (taken o es)) <> List.length (taken o es)); [|lia].
      intros H1. apply good_all in H1. congruence. }
  split; [exact St|]. unfold ps_stdout. rewrite St, O, <- app_assoc. f_equal. f_equal.
  destruct (Nat.ltb_spec (List.length (good (taken o es))) (List.length (taken o es))) as [L|L]; [reflexivity|].
  destruct (registered es && (interrupted es || limit_reached o es)); [|reflexivity].
  unfold ps_statistics. rewrite M. pose proof (good_le (taken o es)). now replace (List.length (good (taken o es))) with (List.length (taken o es)) by lia.
Qed.

Lemma failed_forever es s : ps_failed s = true -> fold_left step es s = s.
Proof. intros H. induction es as [|e es IH]; [reflexivity|]. cbn [fold_left]. unfold ps_step at 2. rewrite H. exact IH. Qed.
Lemma waiting_run es : ~ In PsRegSuccess es -> ~ In PsRegFailure es -> ps_failed (run es) = true \/ ps_waiting (run es) = true.
Proof.
  intros H1 H2. destruct (inv_run es H2) as [F A M AC WA O]. destruct (ps_failed (run es)); [now left|right].
  rewrite WA by reflexivity. unfold registered. apply negb_true_iff. apply not_true_is_false. intros H. apply existsb_exists in H.
  destruct H as (e & He & E). destruct e; try discriminate. contradiction.
Qed.
Theorem server_unregistered es1 es2 : ~ In PsRegSuccess es1 -> ~ In PsRegFailure es1 ->
  ps_status (run (es1 ++ PsRegFailure :: es2)) = Some 1%Z /\
  ps_stdout name_uri o (run (es1 ++ PsRegFailure :: es2)) = ps_out (run es1) /\
  answers (s_hist (ps_server (run (es1 ++ PsRegFailure :: es2)))) = answers (s_hist (ps_server (run es1))).
Proof.
  intros H1 H2. destruct (waiting_run es1 H1 H2) as [H|H].
  - replace (run (es1 ++ PsRegFailure :: es2)) with (run es1).
    + unfold ps_stdout, ps_status. rewrite H. rewrite app_nil_r. auto.
    + unfold ps_run at 2. rewrite fold_left_app. symmetry. now apply failed_forever.
  - replace (run (es1 ++ PsRegFailure :: es2)) with (step (run es1) PsRegFailure).
    + unfold ps_step. destruct (ps_failed (run es1)) eqn:E.
      * unfold ps_stdout, ps_status. rewrite E, app_nil_r. auto.
      * rewrite H. unfold ps_stdout, ps_status. cbn. rewrite app_nil_r. auto.
    + unfold ps_run at 2. rewrite fold_left_app. cbn [fold_left]. symmetry. apply failed_forever.
      fold (run es1). unfold ps_step. destruct (ps_failed (run es1)) eqn:E; [exact E|]. rewrite H. reflexivity.
Qed.

(** * Sizes of the answers *)
Lemma ping_fits i : (let d := ping_answer o i in
  name_size (i_name i) + N.of_nat (s_size o) + fst (sig_sizes sign d) + snd (sig_sizes sign d) <= 8768) -> ans i = true.
Proof.
  cbv zeta. intros H. unfold answerable. apply N.leb_le. set (a := fst _) in *. set (b := snd _) in *.
  unfold packet_size, max_packet. cbn [ping_answer k_name k_content k_fbi k_fresh]. rewrite octets_repeat.
  assert (F : (if (0 <? s_fresh o)%Z then elem_size 25 (number_size (Z.to_N (s_fresh o))) else 0) <= 10).
  { destruct (0 <? s_fresh o)%Z; [|lia]. pose proof (number_le (Z.to_N (s_fresh o))).
    pose proof (elem_small 25 (number_size (Z.to_N (s_fresh o))) eq_refl). lia. }
  set (f := if (0 <? s_fresh o)%Z then _ else _) in *.
  rewrite (elem_small 20 (f + 0)) by lia.
  pose proof (elem_le 7 (name_size (i_name i)) eq_refl). pose proof (elem_le 21 (N.of_nat (s_size o)) eq_refl).
  pose proof (elem_le 22 a eq_refl). pose proof (elem_le 23 b eq_refl).
  eapply N.le_trans; [apply elem_le; [reflexivity|lia]|lia].
Qed.
Lemma ping_not_fits i : (let d := ping_answer o i in
  8786 < name_size (i_name i) + N.of_nat (s_size o) + fst (sig_sizes sign d) + snd (sig_sizes sign d)) -> ans i = false.
Proof.
  cbv zeta. intros H. unfold answerable. apply N.leb_gt. set (a := fst _) in *. set (b := snd _) in *.
  unfold packet_size, max_packet. cbn [ping_answer k_name k_content k_fbi k_fresh]. rewrite octets_repeat.
  set (m := elem_size 20 _).
  pose proof (elem_ge 20 ((if (0 <? s_fresh o)%Z then elem_size 25 (number_size (Z.to_N (s_fresh o))) else 0) + 0)).
  pose proof (elem_ge 7 (name_size (i_name i))). pose proof (elem_ge 21 (N.of_nat (s_size o))).
  pose proof (elem_ge 22 a). pose proof (elem_ge 23 b). fold m in H0.
  set (x := elem_size 7 _ + _ + _ + _ + _). assert (X : 8796 < x) by (unfold x; lia).
  unfold elem_size. change (var_size 6) with 1. assert (V : 3 <= var_size x) by (apply var_ge; lia). lia.
Qed.

(** An Interest of 8800 octets whose answer is longer. *)
Definition long_name (p : name) : name := p ++ [Comp 8 (repeat 0 (N.to_nat (8782 - name_size p)))].
Lemma long_name_size p : name_size p <= 8500 -> name_size (long_name p) = 8786.
Proof.
  intros H. unfold long_name. rewrite name_size_app. unfold name_size at 2. cbn [map fold_right]. unfold comp_size. cbn [c_type c_value].
  rewrite octets_repeat, N2Nat.id. rewrite elem_mid; lia.
Qed.
Lemma long_interest_size p : name_size p <= 8500 -> interest_size (Interest (long_name p) false false) = 8800.
Proof. intros H. unfold interest_size. cbn [i_name i_canBePrefix i_mustBeFresh]. rewrite long_name_size by exact H. reflexivity. Qed.
Lemma ping_long i : 8786 <= name_size (i_name i) -> ans i = false.
Proof.
  intros H. unfold answerable. apply N.leb_gt. set (a := fst _) in *. set (b := snd _) in *.
  unfold packet_size, max_packet. cbn [ping_answer k_name k_content k_fbi k_fresh].
  set (m := elem_size 20 _). set (c := elem_size 21 _). assert (2 <= m) by (unfold m; etransitivity; [|apply elem_ge]; lia).
  assert (2 <= c) by (unfold c; etransitivity; [|apply elem_ge]; lia).
  assert (N1 : name_size (i_name i) + 4 <= elem_size 7 (name_size (i_name i))).
  { unfold elem_size. assert (3 <= var_size (name_size (i_name i))) by (apply var_ge; lia). change (var_size 7) with 1. lia. }
  pose proof (elem_ge 22 a). pose proof (elem_ge 23 b).
  set (x := elem_size 7 _ + _ + _ + _ + _). assert (X : 8798 <= x) by (unfold x; lia).
  unfold elem_size. change (var_size 6) with 1. assert (V : 3 <= var_size x) by (apply var_ge; lia). lia.
Qed.
Lemma prefix_long p x : is_prefix_of p (p ++ x) = true.
Proof. apply is_prefix_of_spec. now exists x. Qed.
Theorem server_can_be_ended : name_size (s_prefix o) <= 8490 ->
  exists i, interest_size i = 8800 /\
    forall es, ~ In PsRegFailure es -> interrupted es = false -> limit_reached o es = false ->
      ps_status (run (es ++ [PsInterest i])) = Some 1%Z.
Proof.
  intros H. set (p := s_prefix o ++ [ping_comp]). assert (Hp : name_size p <= 8500).
  { unfold p. rewrite name_size_app. change (name_size [ping_comp]) with 6. lia. }
  exists (Interest (long_name p) false false). split; [now apply long_interest_size|].
  intros es H1 H2 H3. set (i := Interest _ _ _).
  assert (Ea : ans i = false) by (apply ping_long; cbn [i i_name]; rewrite long_name_size; lia).
  assert (H1' : ~ In PsRegFailure (es ++ [PsInterest i])).
  { intros X. apply in_app_or in X. destruct X as [X|[X|[]]]; [contradiction|discriminate]. }
  rewrite (proj1 (proj2 (server_program _ H1'))).
  assert (T : taken o (es ++ [PsInterest i]) = taken o es ++ [i]).
  { rewrite taken_snoc, H3. unfold new. rewrite H2. cbn [i i_name]. unfold long_name. fold p. now rewrite prefix_long. }
  rewrite T. replace (Nat.ltb _ _) with true; [reflexivity|]. symmetry. apply Nat.ltb_lt.
  pose proof (good_le (taken o es ++ [i])).
  assert (List.length (good (taken o es ++ [i])) <> List.length (taken o es ++ [i])); [|lia].
  intros X. apply good_all in X. rewrite forallb_app in X. cbn in X. rewrite Ea, andb_false_r in X. discriminate.
Qed.
End PingServer.
