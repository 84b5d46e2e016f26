(** Vocabulary for statements about the end of a run of the fixed pipeline. *)
From Verif Require Import Base PipelineBase FixedModel.

Definition is_interest (o : pobs) : bool := match o with OInterest _ _ => true | _ => false end.

(** The first [m] events of an infinite schedule. *)
Definition xfirst (m : nat) (f : nat -> xevent) : list xevent := map f (seq 0 m).
