(** The exit status of ndncatchunks: C53.  Everywhere: [dc], [des] any discovery options and
    events, the pipeline any option values (fixed: size at least one) and any sequence of
    network and timer events; the program itself never cancels a pipeline from outside. *)
From Verif Require Import Base TlvModel PipelineBase PipelineSpec FetcherModel PutchunksModel PutchunksSpec DiscoverModel DiscoverSpec.
From Verif Require Import AdaptiveModel AdaptiveWitness FixedModel CatchunksModel CatchunksSpec CatchunksProofs ExitModel ExitTheorems.
Local Open Scope Z_scope.

(** Status 0: everything was written.  For the fixed pipeline, against any producer: all
    segments up to the announced final one were handed to the application. *)
Theorem C53_fixed_success_complete :
  forall dc des (size : nat) (maxRetries : Z) (es : list xevent),
    (0 < size)%nat -> ~ In XeCancel es ->
    let s := x_run (XConfig size maxRetries d_appnack) es in
    let h := x_history s in
    catchunks_status (d_run dc des) (x_working s) h = Some 0 ->
    exists n, known_last h = Some n /\ forall k, (k <= n)%N -> In k (map fst (deliveries h)).
Proof. exact exit_fixed_success. Qed.
Print Assumptions C53_fixed_success_complete.

Theorem C53_fixed_success_output :
  forall dc des (size : nat) (maxRetries : Z) (es : list xevent),
    (0 < size)%nat -> forall chunks, ~ In XeCancel es ->
    let s := x_run (XConfig size maxRetries d_appnack) es in
    let h := x_history s in
    genuine_history chunks h ->
    catchunks_status (d_run dc des) (x_working s) h = Some 0 ->
    catchunks_stdout h = concat chunks.
Proof. exact exit_fixed_output. Qed.
Print Assumptions C53_fixed_success_output.

(** For the adaptive pipelines: against a genuine producer.  Against any producer the claim
    is false, see below. *)
Theorem C53_adaptive_success_output_partial :
  forall W R (P : policy W R) dc des (maxRetries : Z) ignoreMarks disableCwa (es : list aevent) chunks,
    ~ In AeCancel es ->
    let s := a_run P (catchunks_config maxRetries ignoreMarks disableCwa) es in
    let h := a_history s in
    genuine_history chunks h ->
    catchunks_status (d_run dc des) (a_working s) h = Some 0 ->
    catchunks_stdout h = concat chunks.
Proof. exact @exit_adaptive_output. Qed.
Print Assumptions C53_adaptive_success_output_partial.

(** A producer that answers segment 2 and then announces segment 1 as the final one: the
    program ends with status 0 although segment 1 was never received. *)
Theorem C53_adaptive_success_complete_refuted :
  exists dc des W R (P : policy W R) (es : list aevent),
    ~ In AeCancel es /\
    let s := a_run P (catchunks_config 15 false false) es in
    let h := a_history s in
    catchunks_status (d_run dc des) (a_working s) h = Some 0 /\
    known_last h = Some 1%N /\ ~ In 1%N (map fst (deliveries h)).
Proof.
  exists (DConfig true 15 []), [], Z, unit, (halving 3), [AeData 2 (dat [] FbiAbsent); AeData 0 (dat [] (FbiSegment 1))].
  vm_compute. intuition discriminate.
Qed.
Print Assumptions C53_adaptive_success_complete_refuted.

(** Conversely: once discovery succeeded and the pipeline reported completion (genuine
    producer), the program has ended with status 0. *)
Theorem C53_fixed_completion_succeeds :
  forall dc des (size : nat) (maxRetries : Z) (es : list xevent),
    (0 < size)%nat -> forall chunks vname,
    let s := x_run (XConfig size maxRetries d_appnack) es in
    let h := x_history s in
    genuine_history chunks h -> In (DoSuccess vname) (d_run dc des) -> In ODone h ->
    catchunks_status (d_run dc des) (x_working s) h = Some 0.
Proof. exact exit_fixed_done. Qed.
Print Assumptions C53_fixed_completion_succeeds.

Theorem C53_adaptive_completion_succeeds :
  forall W R (P : policy W R) dc des (maxRetries : Z) ignoreMarks disableCwa (es : list aevent) chunks vname,
    let s := a_run P (catchunks_config maxRetries ignoreMarks disableCwa) es in
    let h := a_history s in
    genuine_history chunks h -> In (DoSuccess vname) (d_run dc des) -> In ODone h ->
    catchunks_status (d_run dc des) (a_working s) h = Some 0.
Proof. exact @exit_adaptive_done. Qed.
Print Assumptions C53_adaptive_completion_succeeds.

(** Status 3: an application-level Nack was received instead of a segment. *)
Theorem C53_fixed_appnack :
  forall dc des (size : nat) (maxRetries : Z) (es : list xevent),
    let s := x_run (XConfig size maxRetries d_appnack) es in
    let h := x_history s in
    catchunks_status (d_run dc des) (x_working s) h = Some 3 <->
    (exists vname, In (DoSuccess vname) (d_run dc des)) /\
    exists k d, In (ODeliver k d) h /\ d_appnack d = true.
Proof. exact exit_fixed_appnack. Qed.
Print Assumptions C53_fixed_appnack.

Theorem C53_adaptive_appnack :
  forall W R (P : policy W R) dc des (maxRetries : Z) ignoreMarks disableCwa (es : list aevent),
    let s := a_run P (catchunks_config maxRetries ignoreMarks disableCwa) es in
    let h := a_history s in
    catchunks_status (d_run dc des) (a_working s) h = Some 3 <->
    (exists vname, In (DoSuccess vname) (d_run dc des)) /\
    exists k d, In (ODeliver k d) h /\ d_appnack d = true.
Proof. exact @exit_adaptive_appnack. Qed.
Print Assumptions C53_adaptive_appnack.

(** Status 1: the discovery failed, or the pipeline reported failure, or a FinalBlockId was
    not a segment number.  No other exception occurs. *)
Theorem C53_fixed_failure :
  forall dc des (size : nat) (maxRetries : Z) (es : list xevent),
    let s := x_run (XConfig size maxRetries d_appnack) es in
    let h := x_history s in
    catchunks_status (d_run dc des) (x_working s) h = Some 1 ->
    In DoFailure (d_run dc des) \/ (exists reason, In (OFail reason) h) \/
    exists k d, In (OGotData k d) h /\ d_fbi d = FbiInvalid.
Proof. exact exit_fixed_failure. Qed.
Print Assumptions C53_fixed_failure.

Theorem C53_adaptive_failure :
  forall W R (P : policy W R) dc des (maxRetries : Z) ignoreMarks disableCwa (es : list aevent),
    let s := a_run P (catchunks_config maxRetries ignoreMarks disableCwa) es in
    let h := a_history s in
    catchunks_status (d_run dc des) (a_working s) h = Some 1 ->
    In DoFailure (d_run dc des) \/ (exists reason, In (OFail reason) h) \/
    exists k d, In (OGotData k d) h /\ d_fbi d = FbiInvalid.
Proof. exact @exit_adaptive_failure. Qed.
Print Assumptions C53_adaptive_failure.

(** There is no other status (5 is never seen: every Data is accepted). *)
Theorem C53_no_other_status :
  forall dc des working h status,
    catchunks_status (d_run dc des) working h = Some status -> status = 0 \/ status = 1 \/ status = 3.
Proof. exact exit_values. Qed.
Print Assumptions C53_no_other_status.

(** End to end: ndnputchunks serves [input], the network forges nothing; if ndncatchunks
    exits with status 0, its standard output is [input]. *)
Theorem C53_fixed_transfer :
  forall digest cv now0 (Hnow : (now0 < 18446744073709551616)%N)
         o (Hsize : (0 < po_size o)%nat) prefix input (Hinput : (N.of_nat (length input) + 1 < 18446744073709551616)%N),
    let P := make_producer cv now0 o prefix input in
    forall (size : nat) (maxRetries : Z) (es : list xevent) dc des ccv mbf,
    (0 < size)%nat -> ~ In XeCancel es ->
    encodable (pr_vprefix P) -> client_of digest cv P dc (d_run dc des) ->
    let s := x_run (XConfig size maxRetries d_appnack) es in
    let h := x_history s in
    (forall vname, In (DoSuccess vname) (d_run dc des) -> honest_network digest cv P ccv vname mbf h) ->
    catchunks_status (d_run dc des) (x_working s) h = Some 0 -> catchunks_stdout h = input.
Proof. exact transfer_fixed. Qed.
Print Assumptions C53_fixed_transfer.

Theorem C53_adaptive_transfer :
  forall digest cv now0 (Hnow : (now0 < 18446744073709551616)%N)
         o (Hsize : (0 < po_size o)%nat) prefix input (Hinput : (N.of_nat (length input) + 1 < 18446744073709551616)%N),
    let P := make_producer cv now0 o prefix input in
    forall W R (pol : policy W R) (maxRetries : Z) ignoreMarks disableCwa (es : list aevent) dc des ccv mbf,
    ~ In AeCancel es ->
    encodable (pr_vprefix P) -> client_of digest cv P dc (d_run dc des) ->
    let s := a_run pol (catchunks_config maxRetries ignoreMarks disableCwa) es in
    let h := a_history s in
    (forall vname, In (DoSuccess vname) (d_run dc des) -> honest_network digest cv P ccv vname mbf h) ->
    catchunks_status (d_run dc des) (a_working s) h = Some 0 -> catchunks_stdout h = input.
Proof. exact transfer_adaptive. Qed.
Print Assumptions C53_adaptive_transfer.

(** concrete statuses (discovery disabled); the end-to-end hypotheses are met in [C24_case] *)
Definition run_status (es : list xevent) : option Z :=
  let s := x_run (XConfig 3 1 d_appnack) es in
  catchunks_status (d_run (DConfig true 15 []) []) (x_working s) (x_history s).
Definition run_statusA (es : list aevent) : option Z :=
  let s := a_run (halving 2) (catchunks_config 15 false false) es in
  catchunks_status (d_run (DConfig true 15 []) []) (a_working s) (a_history s).
Example C53_case :
  run_status [XeData 0 (dat [1] (FbiSegment 2)); XeData 2 (dat [3] FbiAbsent)]%N = None /\
  run_status [XeData 0 (dat [1] (FbiSegment 2)); XeData 2 (dat [3] FbiAbsent); XeData 1 (dat [2] FbiAbsent)]%N = Some 0 /\
  run_status [XeData 0 (dat [1] FbiAbsent); XeData 1 (Data [] FbiAbsent false true)]%N = Some 3 /\
  run_status [XeData 0 (dat [1] (FbiSegment 2)); XeNack 1 NrNoRoute]%N = Some 1 /\
  run_status [XeData 0 (dat [1] FbiInvalid)]%N = Some 1.
Proof. vm_compute. auto. Qed.
Example C53_caseA :
  run_statusA (firstn 4 run3) = None /\ run_statusA run3 = Some 0 /\
  run_statusA [AeData 0 (Data [] FbiAbsent false true)] = Some 3 /\
  run_statusA [AeData 0 (dat [] (FbiSegment 2)); AeNack 1 NrNoRoute] = Some 1 /\
  run_statusA [AeData 0 (dat [] FbiInvalid)] = Some 1 /\
  catchunks_status (d_run (DConfig false 0 []) [DeTimeout]) true [] = Some 1.
Proof. vm_compute. auto 6. Qed.
Example C53_case_genuine :
  let h := a_history (a_run (halving 2) (catchunks_config 15 false false) run3) in
  genuine_history chunks3 h /\ catchunks_stdout h = [1; 2; 3; 4; 5]%N.
Proof.
  split; [apply genuine_forall; vm_compute; repeat (constructor; [vm_compute; tauto|]); constructor | vm_compute; auto].
Qed.
