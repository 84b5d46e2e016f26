(** Vocabulary for statements about the Interest of ndnpeek: reading an Interest (NDN packet
    format, section "Interest Packet"). *)
From Verif Require Import Base TlvModel TlvProofs PeekModel PeekPokeModel.

(** [w] is an Interest packet that consists of the elements [es] (type, value) *)
Definition interest_of (w : list N) (es : list (N * list N)) : Prop := w = tlv 5 (encode_all es).
(** the element of type [t] is there, with value [v] / is not there *)
Definition has (es : list (N * list N)) (t : N) (v : list N) : Prop := In (t, v) es /\ forall v', In (t, v') es -> v' = v.
Definition lacks (es : list (N * list N)) (t : N) : Prop := forall v, ~ In (t, v) es.
(** the element is there, without value, iff [b] *)
Definition flag (es : list (N * list N)) (t : N) (b : bool) : Prop := if b then has es t [] else lacks es t.

(** [n'] is the name [n], with one ParametersSha256Digest component (type 2) of value [v]: in
    place of the one that [n] has, or at the end *)
Definition with_digest (n n' : name) (v : list N) : Prop :=
  (exists a c b, n = a ++ c :: b /\ c_type c = 2%N /\ n' = a ++ Comp 2 v :: b) \/
  ((forall c, In c n -> c_type c <> 2%N) /\ n' = n ++ [Comp 2 v]).
Definition digests (n : name) : nat := length (filter (fun c => N.eqb (c_type c) 2) n).

(** requests that the command line can give: numbers and names can be encoded *)
Definition request_ok (r : peek_request) : Prop :=
  name_ok (pr_name r) /\ Forall name_ok (pr_hint r) /\ (0 <= pr_lifetime r < 2 ^ 63)%Z.

(** events that are nothing to ndnpeek *)
Definition silent (po : peek_opts) (e : pp_event) : Prop :=
  match e with NpData | NpNack _ | NpExpired => False | NpPeekTimer => pk_timeout po = false | _ => True end.
