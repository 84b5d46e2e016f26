(** What is assumed of a run with the CUBIC pipeline. *)
From Verif Require Import Base PipelineBase.

(** ** The window could be converted
    The pipeline converts its window, a [double], to a 64-bit integer in order to decide how
    many Interests may be in flight.  A window of 2^63 or more does not fit; x86-64 gives -2^63
    then, and the trace shows it.  [w0] is the initial window, converted. *)
Definition convertible (w0 : Z) (h : list pobs) : Prop :=
  w0 <> -9223372036854775808 /\ ~ In (OWindow (-9223372036854775808)) h.

(** a check *)
Lemma convertible_check w0 h :
  negb (w0 =? -9223372036854775808) && forallb (fun x => match x with OWindow w => negb (w =? -9223372036854775808) | _ => true end) h = true ->
  convertible w0 h.
Proof.
  intros H. apply andb_prop in H. destruct H as [H1 H2]. split.
  - intros E. now rewrite E in H1.
  - intros Hin. rewrite forallb_forall in H2. now specialize (H2 _ Hin).
Qed.
