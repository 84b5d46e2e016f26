(** ndn-dissect does what [dissect_behaves] says. *)
From Verif Require Import Base TlvModel TlvProofs PingModel PeekModel PeekProofs DumpModel DissectModel DissectSpec DissectProofs DissectRunModel DissectRunSpec.
From Coq Require Import String List Lia.
Import ListNotations.
Local Open Scope N_scope.
Local Open Scope list_scope.

Section Proofs.
Variable keep : bool.
Variable limit : N.
Variable what : list N -> text.
Variables program usage version : text.
Variable stdin : stream.
Variable open_file : text -> option stream.
Notation prog := (dissect_program keep limit what program usage version stdin open_file).
Notation behaves := (dissect_behaves keep limit what program usage version stdin open_file).

Lemma one_line l : unlines [l] = l ++ [10].
Proof. unfold unlines. cbn. apply app_nil_r. Qed.

Definition show (content : bool) (s : option stream) (none : dissect_result) : option dissect_result :=
  match s with
  | None => Some none
  | Some s => match dissect_stream keep limit what content s with
              | None => None
              | Some (out, err) => Some (DissectResult out err 0)
              end
  end.
Definition none (f : option text) : dissect_result :=
  DissectResult [] (program ++ str ": " ++ (match f with Some f => f | None => [] end) ++ str ": File does not exist or is unreadable" ++ [10]) 3.

Lemma reads_show a s : da_help a = false -> da_version a = false -> reads stdin open_file (da_file a) s ->
  prog (inr a) = show (da_content a) s (none (da_file a)).
Proof.
  intros H V R. unfold dissect_program. rewrite H, V. unfold none. destruct R as [| |f Nd]; [reflexivity|reflexivity|].
  unfold show. destruct (is_dash f) eqn:D; [|destruct (open_file f); reflexivity].
  destruct f as [|c [|d f]]; try discriminate D. apply N.eqb_eq in D. subst c. exfalso. apply Nd. reflexivity.
Qed.

Lemma stream_some content s es rest xs : st_octets s = encode_all es ++ rest -> Forall (fits limit) es ->
  Forall2 (shown keep content) es xs -> rest = [] \/ from_stream limit rest = None ->
  dissect_stream keep limit what content s =
  Some (unlines (forest_lines type_label escape xs),
        match rest with [] => [] | _ => str "ERROR: " ++ what rest ++ str " at offset " ++ dec (length (encode_all es)) ++ [10] end).
Proof.
  intros Hs F S R. unfold dissect_stream. rewrite Hs, (dissect_prints keep content limit es xs rest F S R).
  destruct rest as [|b rest]; [reflexivity|]. cbn [d_out].
  rewrite skipn_app, skipn_all, Nat.sub_diag. reflexivity.
Qed.

Theorem dissect_behaves_prog cmd r : behaves cmd r -> prog cmd = Some r.
Proof.
  intros H. destruct H as [e|a H|a H V|a f H V Hf R|a s es xs H V R Hs F S|a s es rest xs H V R Hs N Hn F S].
  - rewrite one_line, <- app_assoc. reflexivity.
  - cbn. rewrite H. reflexivity.
  - cbn. rewrite H, V. reflexivity.
  - rewrite <- Hf in R. rewrite (reads_show a _ H V R). unfold show, none. rewrite Hf, one_line, <- !app_assoc. reflexivity.
  - rewrite (reads_show a _ H V R). unfold show.
    rewrite (stream_some (da_content a) s es [] xs); [reflexivity|rewrite app_nil_r; exact Hs|exact F|exact S|left; reflexivity].
  - rewrite (reads_show a _ H V R). unfold show.
    rewrite (stream_some (da_content a) s es rest xs Hs F S (or_intror Hn)). destruct rest as [|b rest]; [congruence|].
    rewrite one_line, <- !app_assoc. reflexivity.
Qed.

Lemma reads_total f : exists s, reads stdin open_file f s.
Proof.
  destruct f as [f|]; [|eexists; constructor]. destruct (list_eq_dec N.eq_dec f (str "-")) as [->|N]; eexists; [constructor|].
  constructor. exact N.
Qed.

Theorem dissect_total_behaves cmd :
  (Forall is_byte (st_octets stdin)) -> (forall f s, open_file f = Some s -> Forall is_byte (st_octets s)) ->
  exists r, behaves cmd r.
Proof.
  intros Bi Bf. destruct cmd as [e|a]; [eexists; constructor|].
  destruct (da_help a) eqn:H; [eexists; constructor; assumption|].
  destruct (da_version a) eqn:V; [eexists; constructor; assumption|].
  destruct (reads_total (da_file a)) as (s & R). destruct s as [s|].
  - assert (B : Forall is_byte (st_octets s)).
    { inversion R as [E1 E2|E1 E2|f N E1 E2]; subst; try exact Bi. eapply Bf; eassumption. }
    destruct (input_cases limit (length (st_octets s)) (st_octets s) (le_n _) B) as (es & rest & E & F & C).
    destruct (forest_exists keep (da_content a) limit es F) as (xs & S).
    destruct rest as [|b rest].
    + eexists. eapply Db_all; eauto. rewrite app_nil_r in E. exact E.
    + destruct C as [C|C]; [discriminate|]. eexists. eapply Db_some; eauto. discriminate.
  - destruct (da_file a) as [f|] eqn:Hf; [|inversion R]. eexists. eapply Db_no_file; eauto.
Qed.

Theorem dissect_prog_behaves cmd r :
  (Forall is_byte (st_octets stdin)) -> (forall f s, open_file f = Some s -> Forall is_byte (st_octets s)) ->
  prog cmd = Some r -> behaves cmd r.
Proof.
  intros Bi Bf H. destruct (dissect_total_behaves cmd Bi Bf) as (r' & B). assert (B' := B).
  apply dissect_behaves_prog in B'. rewrite H in B'. injection B' as ->. exact B.
Qed.

(** reading that fails looks like the end of the input *)
Theorem read_failure_silent l cmd :
  dissect_program keep limit what program usage version (Stream l true) open_file cmd =
  dissect_program keep limit what program usage version (Stream l false) open_file cmd.
Proof. reflexivity. Qed.
End Proofs.

(** * Behind ndnpeek *)
Section Pipe.
Variable keep : bool.
Variable limit : N.
Variable what : list N -> text.
Variables program usage version : text.
Variable open_file : text -> option stream.

Lemma pipe_packet content t v x : fits limit (t, v) -> shown keep content (t, v) x ->
  dissect_program keep limit what program usage version (Stream (tlv t v) false) open_file (plain content) =
  Some (DissectResult (unlines (tree_lines type_label escape x)) [] 0).
Proof.
  intros F S. apply dissect_behaves_prog.
  replace (tree_lines type_label escape x) with (forest_lines type_label escape [x]) by (cbn; apply app_nil_r).
  eapply Db_all with (es := [(t, v)]); [reflexivity|reflexivity|constructor| | |].
  - cbn. rewrite app_nil_r. reflexivity.
  - constructor; [exact F|constructor].
  - constructor; [exact S|constructor].
Qed.
End Pipe.
