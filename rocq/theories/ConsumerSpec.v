(** Vocabulary for statements about the consumer. *)
From Verif Require Import Base ConsumerModel.

(** [gapfree segs out]: [out] is the concatenation of the contents of the longest run
    0, 1, ..., n-1 of segments that are all present in [segs]. *)
Definition gapfree (segs : list (N * data)) (out : list N) : Prop :=
  exists chunks : list (list N),
    out = concat chunks /\
    (forall k c, nth_error chunks k = Some c -> exists d, In (N.of_nat k, d) segs /\ d_content d = c) /\
    (forall d, ~ In (N.of_nat (length chunks), d) segs).

Definition is_bad (e : cevent) : bool :=
  match e with CeReject _ _ => true | CeAccept _ d => d_appnack d end.
