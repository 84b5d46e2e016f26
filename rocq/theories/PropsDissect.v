(** Properties of ndn-dissect: C43-C45.  [keep] and [limit] describe ndn-cxx
    (DissectModel.v); where they are universally quantified, the property does not depend on
    them. *)
From Verif Require Import Base TlvModel TlvProofs PingModel DumpModel DissectModel DissectSpec DissectProofs DissectProofs2.
From Coq Require Import String List.
Import ListNotations.
Local Open Scope N_scope.
Local Open Scope list_scope.

(** * C43 Dissect shows the whole TLV tree *)

(** For a sequence of elements with the trees [xs] ([shown], DissectSpec.v), followed by
    nothing or by something that is not an element, the output consists of the lines of the
    trees, and the error message gives the offset of what is not an element. *)
Theorem C43_output :
  forall (keep content : bool) (limit : N) (es : list (N * list N)) (xs : list tree) (rest : list N),
    Forall (fits limit) es ->
    Forall2 (shown keep content) es xs ->
    rest = [] \/ from_stream limit rest = None ->
    dissect keep limit content (encode_all es ++ rest) =
      Some (Dst (unlines (forest_lines type_label escape xs)) [],
            match rest with [] => None | _ => Some (length (encode_all es)) end).
Proof. exact dissect_prints. Qed.
Print Assumptions C43_output.

(** Every input is of this form, and every element has a tree. *)
Theorem C43_every_input :
  forall (limit : N) (n : nat) (l : list N), (length l <= n)%nat -> Forall is_byte l ->
  exists es rest, l = encode_all es ++ rest /\ Forall (fits limit) es /\ (rest = [] \/ from_stream limit rest = None).
Proof. exact input_cases. Qed.
Print Assumptions C43_every_input.

Theorem C43_every_element :
  forall (keep content : bool) (e : N * list N), Forall is_byte (snd e) -> exists x, shown keep content e x.
Proof. exact shown_exists. Qed.
Print Assumptions C43_every_element.

(** One line for each element. *)
Theorem C43_one_line_each :
  forall (x : tree), length (tree_lines type_label escape x) = nodes x.
Proof. exact lines_length. Qed.
Print Assumptions C43_one_line_each.

(** The trees can be recovered from the output: different trees give different outputs. *)
Theorem C43_recoverable :
  forall (keep : bool) (limit : N) (content : bool) es1 es2 xs1 xs2,
    Forall (fits limit) es1 -> Forall (fits limit) es2 ->
    Forall2 (shown keep content) es1 xs1 -> Forall2 (shown keep content) es2 xs2 ->
    option_map (fun r => d_out (fst r)) (dissect keep limit content (encode_all es1)) =
    option_map (fun r => d_out (fst r)) (dissect keep limit content (encode_all es2)) ->
    xs1 = xs2.
Proof. exact dissect_same_trees. Qed.
Print Assumptions C43_recoverable.

(** If Block::parse discards the sub-elements of a value that does not consist of elements,
    even the bytes of the input can be recovered. *)
Theorem C43_lossless :
  forall (limit : N) (content : bool) (l1 l2 : list N) out b1 b2,
    Forall is_byte l1 -> Forall is_byte l2 ->
    dissect false limit content l1 = Some (Dst out b1, None) ->
    dissect false limit content l2 = Some (Dst out b2, None) ->
    l1 = l2.
Proof. exact dissect_lossless. Qed.
Print Assumptions C43_lossless.

(** If it does not, bytes are missing from the output. *)
Theorem C43_lossless_if_kept_refuted :
  exists (l1 l2 : list N) r, l1 <> l2 /\ dissect true 8800 false l1 = Some (r, None) /\ dissect true 8800 false l2 = Some (r, None).
Proof.
  exists (tlv 8 [65; 0; 253]), (tlv 8 [65; 0; 254]). eexists. split; [discriminate|]. split; vm_compute; reflexivity.
Qed.
Print Assumptions C43_lossless_if_kept_refuted.

(** an Interest with name /A/%00 and a nonce, then a Data packet with empty name *)
Definition two_packets : list (N * list N) :=
  [(5, encode_all [(7, encode_all [(8, [65]); (8, [0])]); (10, [9; 9; 9; 9])]); (6, encode_all [(7, [])])].
Example C43_case :
  Forall (fits 8800) two_packets /\
  Forall2 (shown false false) two_packets
    [Branch 5 14 [Branch 7 6 [Leaf 8 [65]; Leaf 8 [0]]; Leaf 10 [9; 9; 9; 9]]; Branch 6 2 [Leaf 7 []]] /\
  from_stream 8800 [6; 2; 7] = None /\
  dissect false 8800 false (encode_all two_packets ++ [6; 2; 7]) =
    Some (Dst (unlines [str "5 (Interest) (size: 14)";
                        TEE ++ str "7 (Name) (size: 6)";
                        VERT ++ TEE ++ str "8 (GenericNameComponent) (size: 1) [[A]]";
                        VERT ++ CORNER ++ str "8 (GenericNameComponent) (size: 1) [[%00]]";
                        CORNER ++ str "10 (Nonce) (size: 4) [[%09%09%09%09]]";
                        str "6 (Data) (size: 2)";
                        CORNER ++ str "7 (Name) (size: 0) [[]]"]) [], Some 20%nat).
Proof.
  assert (A : forall v, parse_elements false v = [] -> Forall is_byte v -> divided false v []).
  { intros v H1 H2. rewrite <- H1. now apply parse_divided. }
  assert (S : forall v es, Forall (fun e => elem_ok (fst e) (snd e)) es -> v = encode_all es -> divided false v es).
  { intros v es H1 H2. left. split; assumption. }
  assert (NO : forall t, (t =? 23) || (t =? 46) || (t =? 21) = false -> ~ opaque_type false t).
  { intros t H [->|[->|[-> _]]]; discriminate. }
  assert (B : forall t v es cs n, n = length v -> ~ opaque_type false t -> es <> [] -> divided false v es ->
              Forall2 (shown false false) es cs -> shown false false (t, v) (Branch t n cs)).
  { intros t v es cs n ->. apply Sh_branch. }
  split; [|split; [|split]].
  - repeat constructor; cbn [fst snd]; try (vm_compute; congruence); try (vm_compute; reflexivity).
  - constructor; [|constructor; [|constructor]].
    + apply (B 5 _ [(7, encode_all [(8, [65]); (8, [0])]); (10, [9; 9; 9; 9])]); [vm_compute; reflexivity|now apply NO|discriminate| |].
      * apply S; [|reflexivity]. repeat constructor; vm_compute; congruence.
      * constructor; [|constructor; [|constructor]].
        -- apply (B 7 _ [(8, [65]); (8, [0])]); [vm_compute; reflexivity|now apply NO|discriminate| |].
           ++ apply S; [|reflexivity]. repeat constructor; vm_compute; congruence.
           ++ constructor; [|constructor; [|constructor]]; constructor; right; apply A; try (vm_compute; reflexivity); repeat constructor.
        -- constructor. right. apply A; [vm_compute; reflexivity|repeat constructor].
    + apply (B 6 _ [(7, [])]); [vm_compute; reflexivity|now apply NO|discriminate| |].
      * apply S; [|reflexivity]. repeat constructor; vm_compute; congruence.
      * constructor; [|constructor]. constructor. right. apply A; [vm_compute; reflexivity|constructor].
  - vm_compute. reflexivity.
  - vm_compute. reflexivity.
Qed.

(** * C44 Dissect type naming *)

(** The label printed for any type number: its standard name (DissectSpec.v), or by range. *)
Theorem C44_labels :
  forall (t : N),
    (forall s, standard_name t = Some s -> type_label t = s) /\
    (standard_name t = None -> application_type t -> type_label t = str "UNKNOWN_APP") /\
    (standard_name t = None -> ~ application_type t -> type_label t = str "RESERVED").
Proof. exact label_cases. Qed.
Print Assumptions C44_labels.

(** No two types have the same standard name. *)
Theorem C44_names_distinct :
  forall (t t' : N) s, standard_name t = Some s -> standard_name t' = Some s -> t = t'.
Proof. exact names_distinct. Qed.
Print Assumptions C44_names_distinct.

Example C44_case :
  type_label 21 = str "Content" /\ type_label 200 = str "UNKNOWN_APP" /\ type_label 32767 = str "UNKNOWN_APP" /\
  type_label 32766 = str "RESERVED" /\ type_label 128 = str "SafeBag" /\ type_label 253 = str "ValidityPeriod".
Proof. vm_compute. auto 6. Qed.

(** * C45 Dissect terminates and stays in bounds *)

(** For any input, dissecting ends (the recursion and both loops are bounded by the length of
    the input), the stack of branches is never accessed while empty ([Some]), and it is empty
    again at the end. *)
Theorem C45_balanced :
  forall (keep content : bool) (limit : N) (l : list N), Forall is_byte l ->
  exists out err, dissect keep limit content l = Some (Dst out [], err).
Proof. exact dissect_total. Qed.
Print Assumptions C45_balanced.

(** Printing one element leaves the stack as it was, whatever it contains. *)
Theorem C45_block_restores :
  forall (keep content : bool) (fuel : nat) (e : N * list N) (x : tree), shown keep content e x ->
    Forall is_byte (snd e) -> (length (snd e) < fuel)%nat ->
  forall s, exists out, printBlock keep content fuel e s = Some (Dst out (d_br s)).
Proof. exact block_restores. Qed.
Print Assumptions C45_block_restores.
