(** How the messages of ndncatchunks read. *)
From Verif Require Import Base TlvModel PipelineBase FetcherModel PutchunksModel DiscoverModel Double PingModel DumpModel DumpSpec DumpProofs2 DecimalSpec
  DecimalModel DecimalProofs PingTextSpec ChunksTextModel ChunksTextSpec ChunksTextProofs2 PeekModel PeekRunModel OptionsModel CatMsgModel CatRunModel CatTextSpec.
From Coq Require Import String List.
Import ListNotations.
Local Open Scope Z_scope.
Local Open Scope list_scope.
Local Opaque str to_string double_text.

Lemma shows_seg_ok k : shows_seg (to_string k) k.
Proof.
  intros H. split; [apply to_string_nonempty|]. rewrite N2Z.id. apply to_string_decimal. lia.
Qed.
Lemma shows_int_ok z : shows_int (int_text z) z.
Proof.
  intros H. unfold int_text. destruct (Z.ltb_spec z 0); [lia|]. split; [apply to_string_nonempty|]. apply to_string_decimal. lia.
Qed.
Lemma shows_double_ok w : shows_double (double_text w) w.
Proof. intros H. now apply double_text_literal. Qed.
Lemma reason_ok r : names_reason r (nack_text r).
Proof.
  destruct r as [| | | |c]; [apply Nr_none|apply Nr_congestion|apply Nr_duplicate|apply Nr_noroute|].
  destruct (in_dec N.eq_dec c [50; 100; 150]%N) as [H|H].
  - apply Nr_known. destruct H as [<-|[<-|[<-|[]]]]; cbn [In]; auto.
  - replace (nack_text (NrOther c)) with (str "None"); [now constructor|]. unfold nack_text, reason_text.
    destruct (N.eqb_spec c 50) as [->|]; [exfalso; apply H; now left|].
    destruct (N.eqb_spec c 100) as [->|]; [exfalso; apply H; right; now left|].
    destruct (N.eqb_spec c 150) as [->|]; [exfalso; apply H; right; right; now left|]. reflexivity.
Qed.
Global Hint Resolve shows_seg_ok shows_int_ok shows_double_ok reason_ok : texts.

Lemma str_app a b : str (a ++ b)%string = str a ++ str b.
Proof. Local Transparent str. induction a as [|c a IH]; [reflexivity|]. cbn. f_equal. exact IH. Local Opaque str. Qed.
Lemma nl_LF : nl = LF.
Proof. reflexivity. Qed.
Lemma tabbed_entry label v : tabbed (str (label ++ " = ") ++ v) = entry label v.
Proof. unfold tabbed, entry. rewrite str_app, <- !app_assoc. reflexivity. Qed.

Section Reads.
Variables (uri : name -> text) (interest_text : name -> Z -> text) (packet_text : packet -> text) (data_text : N -> data -> text)
  (mark_text : data -> text) (component_text : component -> text) (metadata_error : packet -> text) (final_error : data -> text)
  (range_error : text).
Variables (segment_name : N -> name) (metadata_name : name).

Local Transparent str.
Notation rd := (reads interest_text packet_text mark_text component_text segment_name metadata_name).
Notation tx := (msg_text interest_text packet_text mark_text component_text segment_name metadata_name).
Lemma read_as m t t' : rd m t -> t = t' -> rd m t'.
Proof. now intros H <-. Qed.
Definition proper (m : cmsg) : Prop := m <> MVersion [].
Lemma msg_reads m : proper m -> rd m (tx m).
Proof.
  intros Hm. destruct m; [eapply read_as; [constructor; auto using ms_ok with texts|reflexivity]..|].
  destruct n as [|c n] using rev_ind; [now destruct Hm|]. eapply read_as; [constructor|]. cbn [msg_text]. rewrite rev_app_distr. reflexivity.
Qed.
Lemma wanted_shown q v m : shown q v m = wanted q v m.
Proof. destruct m; cbn; try reflexivity. Qed.
Lemma show_reads q v l : Forall proper l ->
  exists lines, show interest_text packet_text mark_text component_text segment_name metadata_name q v l = concat lines /\
    Forall2 rd (filter (wanted q v) l) lines.
Proof.
  intros H. exists (map tx (filter (wanted q v) l)). split.
  - unfold show. now rewrite flat_map_concat_map, (filter_ext _ _ (wanted_shown q v)).
  - induction H as [|m l Hm Hl IH]; cbn [filter map]; [constructor|]. destruct (wanted q v m); cbn [map]; [constructor; [now apply msg_reads|exact IH]|exact IH].
Qed.

Lemma why_reads r f :
  match f with FlReason (RFetch _) | FlOutOfRange | FlOther _ => False | _ => True end ->
  says_why uri data_text metadata_error final_error segment_name metadata_name r f
    (failure_text uri data_text metadata_error final_error range_error segment_name metadata_name r f).
Proof.
  assert (Hc : forall n c, fetch_reason uri r n c (cause_text uri r n c)) by (intros n c; destruct c; constructor; auto with texts).
  intros H. destruct f as [fr| | | | | | | |]; [destruct fr|..]; try contradiction; cbn [failure_text].
  all: try (constructor; auto with texts; fail).
Qed.
End Reads.

Section Parameters.
Variables (ms_text : Z -> text) (initial_rto backoff : Z).
Local Transparent str.
Lemma common_ok a : common_parameters ms_text a (base_report ms_text a).
Proof.
  eexists. split; [|reflexivity]. unfold shows_retries, MAX_RETRIES_INFINITE. destruct (cc_retries (ca_opts a) =? -1); [reflexivity|apply shows_int_ok].
Qed.
Lemma adaptive_ok a : adaptive_parameters ms_text a (adaptive_report ms_text a).
Proof.
  unfold adaptive_parameters. exists (base_report ms_text a). do 4 eexists. split; [apply common_ok|]. do 4 (split; [apply shows_double_ok|]).
  unfold adaptive_report. f_equal. destruct (cc_resetCwnd (ca_opts a)); reflexivity.
Qed.
Lemma rtt_ok a : rtt_parameters ms_text initial_rto backoff a (rtt_report ms_text initial_rto backoff a).
Proof.
  unfold rtt_parameters. do 4 eexists. do 2 (split; [apply shows_double_ok|]). do 2 (split; [apply shows_int_ok|]). reflexivity.
Qed.
Lemma params_fixed a : cc_type (ca_opts a) = "fixed"%string -> parameters ms_text initial_rto backoff a (fixed_report ms_text a).
Proof. intros H. exact (P_fixed _ _ _ a _ _ H (common_ok a) (shows_int_ok _)). Qed.
Lemma params_aimd a : cc_type (ca_opts a) = "aimd"%string ->
  parameters ms_text initial_rto backoff a (rtt_report ms_text initial_rto backoff a ++ adaptive_report ms_text a).
Proof. intros H. exact (P_aimd _ _ _ a _ _ H (rtt_ok a) (adaptive_ok a)). Qed.
Lemma params_cubic a : cc_type (ca_opts a) = "cubic"%string ->
  parameters ms_text initial_rto backoff a (rtt_report ms_text initial_rto backoff a ++ cubic_report ms_text a).
Proof. intros H. exact (P_cubic _ _ _ a _ _ _ H (rtt_ok a) (adaptive_ok a) (shows_double_ok _)). Qed.
End Parameters.
