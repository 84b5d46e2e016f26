(** Vocabulary for statements about the output of ndncatchunks. *)
From Verif Require Import Base PipelineBase PipelineSpec.

Definition is_prefix {A} (a b : list A) : Prop := exists rest, b = a ++ rest.

(** every Data that arrived is a genuine segment of the content made of [chunks] *)
Definition genuine_history (chunks : list (list N)) (h : list pobs) : Prop :=
  forall seg d, In (OGotData seg d) h -> genuine chunks seg d.
