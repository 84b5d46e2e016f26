(** Vocabulary for statements about ndnping and ndnpingserver. *)
From Verif Require Import Base TlvModel PingModel.

(** the sequence numbers of the pings that were answered by Data, of those that were answered
    by a Nack, and of those that timed out; with repetitions, in order *)
Definition data_seqs (h : list gobs) : list N := flat_map (fun x => match x with GData k _ => [k] | _ => [] end) h.
Definition nack_seqs (h : list gobs) : list N := flat_map (fun x => match x with GNack k _ => [k] | _ => [] end) h.
Definition timeout_seqs (h : list gobs) : list N := flat_map (fun x => match x with GTimeout k => [k] | _ => [] end) h.
Definition settled_seqs (h : list gobs) : list N := data_seqs h ++ nack_seqs h ++ timeout_seqs h.

Definition valid_gopts (o : gopts) : Prop :=
  (g_nPings o < 0 \/ 0 < g_nPings o)%Z /\ (g_startSeq o < 18446744073709551616)%N.

(** the Interests among the events that are for the server *)
Definition pings_in (o : sopts) (es : list sevent) : list interest :=
  flat_map (fun e => match e with
                     | SeInterest i => if is_prefix_of (s_prefix o ++ [ping_comp]) (i_name i) then [i] else []
                     | SeInterrupt => [] end) es.
