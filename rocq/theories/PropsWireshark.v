(** Properties of the Wireshark dissector: C56 (elements are shown), C57 (names), C58 (the "Info"
    column), C59 (several packets, and parts of packets).

    [dissector buf reported]: what the dissector leaves behind for the octets [buf] of a datagram
    or of a segment, of which Wireshark says that it had [reported] octets when it was captured;
    [None] means "not an NDN packet".  Packets [p] are elements; [wire p] are their octets. *)
From Coq Require Import String.
From Verif Require Import Base TlvModel PingModel DumpModel WiresharkModel WiresharkSpec
  WiresharkProofs WiresharkProofs2 WiresharkProofs4 WiresharkProofs5 WiresharkProofs7 WiresharkProofs8 WiresharkProofs9.
Open Scope N_scope.

(** Packets for the examples *)
Definition ex_name : name := [Comp 8 [65; 47]; Comp 32 [46]].
Definition ex_interest : element := Node 5 [name_element ex_name; Leaf 33 []; Leaf 10 [200; 201; 202; 203]].
Definition ex_data (content : list N) : element :=
  Node 6 [name_element ex_name; Node 20 [Leaf 25 [100]; Node 26 [Leaf 50 [9]]]; Leaf 21 content;
          Node 22 [Leaf 27 [0]; Node 28 [name_element [Comp 8 [75]]]]; Leaf 23 [250; 249; 1; 2]].
Definition ex_nack : element := Node 100 [Node 800 [Leaf 801 [150]]; Node 80 [ex_interest]].

Ltac wf := repeat (constructor; try (unfold is_byte; lia)).
Ltac fields := unfold field_ok; cbn; repeat split; intros; (discriminate || reflexivity || lia).
Ltac opq := first [left; reflexivity | apply one_opaque | apply beyond_opaque; cbn; lia].
Ltac pl := repeat first [apply Forall_nil | apply Forall_cons | apply plain_node; [fields|] | apply plain_leaf; [opq|fields]].
Ltac sz := split; vm_compute; [reflexivity|discriminate].
Example ex_interest_packet : is_packet ex_interest.
Proof. split; [wf|]. split; [left; reflexivity|sz]. Qed.
Example ex_data_packet : is_packet (ex_data [200; 201; 7]).
Proof. split; [wf|]. split; [right; left; reflexivity|sz]. Qed.
Example ex_nack_packet : is_packet ex_nack.
Proof. split; [wf|]. split; [right; right; reflexivity|sz]. Qed.
Example ex_interest_plain : plain ex_interest. Proof. unfold ex_interest, name_element. cbn [map]. pl. Qed.
Example ex_data_plain : plain (ex_data [200; 201; 7]). Proof. unfold ex_data, name_element. cbn [map]. pl. Qed.
Example ex_nack_plain : plain ex_nack. Proof. unfold ex_nack, ex_interest, name_element. cbn [map]. pl. Qed.

(** * C56 *)

(** Missing for the full statement ("every packet is dissected without errors and exactly its
    elements are shown"): [plain] and [unambiguous].  Without them it is false, see below. *)
Theorem C56_exactly_elements_partial : forall p,
  is_packet p -> plain p -> unambiguous (wire p) ->
  exists r items, dissector (wire p) (zlen (wire p)) = Some r /\ r_trees r = [items] /\ shows_exactly items p /\
    r_end r = Finished /\ r_deseg r = None.
Proof. exact plain_alone. Qed.
Print Assumptions C56_exactly_elements_partial.
Example C56_exactly_elements_nonvacuous :
  is_packet (ex_data [200; 201; 7]) /\ plain (ex_data [200; 201; 7]) /\ unambiguous (wire (ex_data [200; 201; 7])) /\
  n_elements (ex_data [200; 201; 7]) = 15%nat.
Proof.
  split; [exact ex_data_packet|]. split; [exact ex_data_plain|]. split; [apply calm_ok; reflexivity|reflexivity].
Qed.

(** For every packet, whatever follows it: unless there is a Lua error, all of its elements are
    among the items that are shown, each at its place. *)
Theorem C56_elements_shown : forall p post r,
  is_packet p -> (zlen (wire p ++ post) < 4294967296)%Z ->
  dissector (wire p ++ post) (zlen (wire p ++ post)) = Some r ->
  exists items, r_trees r = [items] /\ (r_end r = Finished -> displays items None 0%Z p).
Proof. exact tree_shown. Qed.
Print Assumptions C56_elements_shown.
Example C56_elements_shown_nonvacuous :
  let buf := wire (ex_data [200; 201; 7]) ++ [1; 2; 3] in
  exists r, dissector buf (zlen buf) = Some r /\ r_end r = Finished.
Proof. eexists. split; [vm_compute; reflexivity|reflexivity]. Qed.

(** For every buffer: the dissector ends, and every item stands for octets of the buffer that
    are an element of the item's type and size, within the element it hangs on. *)
Theorem C56_items_genuine : forall buf reported r,
  dissector buf reported = Some r ->
  r_end r <> Endless /\ (length (r_trees r) <= 1)%nat /\
  Forall (fun items => Forall (genuine buf) items /\ Forall (nested items) items) (r_trees r).
Proof. exact dissect_any. Qed.
Print Assumptions C56_items_genuine.
(** octets that are no packet, but hold something like one *)
Example C56_items_genuine_nonvacuous :
  exists r, dissector [1; 2; 3; 5; 6; 253; 0; 7; 2; 8; 0] 11%Z = Some r /\
    map (map it_size) (r_trees r) = [[8; 6; 2]]%Z.
Proof. eexists. split; vm_compute; reflexivity. Qed.

(** The full statement is false: there are packets whose content makes the dissector fail. *)
Theorem C56_content_fails_refuted : exists content r,
  is_packet (ex_data content) /\ dissector (wire (ex_data content)) (zlen (wire (ex_data content))) = Some r /\
  r_end r = Failed /\ r_info r = None.
Proof.
  exists [10; 1; 3]. eexists. split; [|split; [vm_compute; reflexivity|split; reflexivity]].
  split; [wf|]. split; [right; left; reflexivity|sz].
Qed.
Print Assumptions C56_content_fails_refuted.
(** ... or show elements that the packet does not have. *)
Theorem C56_content_shown_as_elements_refuted : exists content r items,
  is_packet (ex_data content) /\ dissector (wire (ex_data content)) (zlen (wire (ex_data content))) = Some r /\
  r_end r = Finished /\ r_trees r = [items] /\ length items <> n_elements (ex_data content).
Proof.
  exists [8; 1; 65]. eexists. eexists. split; [|split; [vm_compute; reflexivity|split; [reflexivity|split; [reflexivity|discriminate]]]].
  split; [wf|]. split; [right; left; reflexivity|sz].
Qed.
Print Assumptions C56_content_shown_as_elements_refuted.

(** * C57 *)

(** Wherever a packet holds a name, an item shows its URI. *)
Theorem C57_names_shown : forall p post r n,
  is_packet p -> (zlen (wire p ++ post) < 4294967296)%Z ->
  dissector (wire p ++ post) (zlen (wire p ++ post)) = Some r -> r_end r = Finished ->
  inside (name_element n) p ->
  exists items it u, r_trees r = [items] /\ In it items /\ it_type it = LNum 7 /\
    it_value it = Some (VText u) /\ name_uri n u.
Proof.
  intros p post r n HP HS H HE HI. destruct (tree_shown p post r HP HS H) as (items & E & D).
  destruct (displayed items (name_element n) p None 0%Z (D HE) HI) as (it & Hin & HT & HL).
  destruct (l_uri _ _ HL n eq_refl) as (u & Hu & HU). exists items, it, u. auto.
Qed.
Print Assumptions C57_names_shown.
Example C57_names_shown_nonvacuous : inside (name_element [Comp 8 [75]]) (ex_data [200; 201; 7]) /\
  name_uri ex_name (str "/A%2F/32=....").
Proof.
  split.
  - eapply inside_node; [do 3 right; left; reflexivity|]. eapply inside_node; [right; left; reflexivity|].
    eapply inside_node; [left; reflexivity|]. constructor.
  - exact (name_uri_ok ex_name).
Qed.

(** Different names have different URIs. *)
Theorem C57_uri_determines_name : forall n m t,
  name_wf n -> name_wf m -> name_uri n t -> name_uri m t -> n = m.
Proof. exact name_uri_inj. Qed.
Print Assumptions C57_uri_determines_name.
Example C57_uri_determines_name_nonvacuous : name_wf ex_name /\ name_wf [Comp 8 [65]; Comp 8 [47]] /\
  name_uri [Comp 8 [65]; Comp 8 [47]] (str "/A/%2F").
Proof. split; [|split]; [wf..|exact (name_uri_ok [Comp 8 [65]; Comp 8 [47]])]. Qed.

(** * C58 *)

(** A Data packet, whatever its content and whatever follows it. *)
Theorem C58_data : forall n es post r,
  let p := Node 6 (name_element n :: es) in
  is_packet p -> (zlen (wire p ++ post) < 4294967296)%Z ->
  dissector (wire p ++ post) (zlen (wire p ++ post)) = Some r -> r_end r = Finished ->
  exists u, r_info r = Some (PtData, u) /\ name_uri n u.
Proof. intros n es post r p HP. exact (info_data n es post r HP). Qed.
Print Assumptions C58_data.
(** its content looks like an Interest of another name *)
Example C58_data_nonvacuous :
  let p := ex_data [5; 5; 7; 3; 8; 1; 66] in
  is_packet p /\ exists r, dissector (wire p) (zlen (wire p)) = Some r /\ r_end r = Finished.
Proof.
  split; [split; [wf|]; split; [right; left; reflexivity|sz]|]. eexists. split; [vm_compute; reflexivity|reflexivity].
Qed.

(** Missing for the full statement: an Interest is always shown as an Interest.  See below. *)
Theorem C58_interest_partial : forall n es post r,
  let p := Node 5 (name_element n :: es) in
  is_packet p -> (zlen (wire p ++ post) < 4294967296)%Z ->
  dissector (wire p ++ post) (zlen (wire p ++ post)) = Some r -> r_end r = Finished ->
  exists ty u, r_info r = Some (ty, u) /\ name_uri n u /\ (ty = PtInterest \/ ty = PtNack).
Proof. intros n es post r p HP. exact (info_interest n es post r HP). Qed.
Print Assumptions C58_interest_partial.

Theorem C58_plain_interest : forall n es post r,
  let p := Node 5 (name_element n :: es) in
  is_packet p -> unambiguous (wire p ++ post) -> plain p -> ~ mentions 800 p ->
  dissector (wire p ++ post) (zlen (wire p ++ post)) = Some r -> r_end r = Finished ->
  exists u, r_info r = Some (PtInterest, u) /\ name_uri n u.
Proof. intros n es post r p HP. exact (info_plain_interest n es post r HP). Qed.
Print Assumptions C58_plain_interest.
Example C58_plain_interest_nonvacuous :
  is_packet ex_interest /\ unambiguous (wire ex_interest ++ []) /\ plain ex_interest /\ ~ mentions 800 ex_interest /\
  exists r, dissector (wire ex_interest) (zlen (wire ex_interest)) = Some r /\ r_end r = Finished.
Proof.
  split; [exact ex_interest_packet|]. split; [apply calm_ok; reflexivity|]. split; [exact ex_interest_plain|]. split.
  - assert (L : forall t v, t <> 800 -> ~ mentions 800 (Leaf t v)) by (intros t v Ht M; inversion M; cbn in *; congruence).
    assert (Nd : forall t es, t <> 800 -> Forall (fun e => ~ mentions 800 e) es -> ~ mentions 800 (Node t es)).
    { intros t es Ht HF M. inversion M; subst; [cbn in *; congruence|]. rewrite Forall_forall in HF. eapply HF; eauto. }
    unfold ex_interest, name_element, ex_name. cbn [map c_type c_value].
    repeat first [apply Forall_nil | apply Forall_cons | apply Nd; [discriminate|] | apply L; discriminate].
  - eexists. split; [vm_compute; reflexivity|reflexivity].
Qed.

(** A link packet: "Nack" if it has a Nack field, otherwise what is inside. *)
Theorem C58_link_packet : forall fields t n es post r,
  let q := Node t (name_element n :: es) in
  let p := Node 100 (fields ++ [Node 80 [q]]) in
  is_packet p -> unambiguous (wire p ++ post) -> plain p -> t = 5 \/ t = 6 ->
  Forall link_field fields -> ~ mentions 800 q ->
  dissector (wire p ++ post) (zlen (wire p ++ post)) = Some r -> r_end r = Finished ->
  exists u, name_uri n u /\
    (Exists (fun f => e_type f = 800) fields -> r_info r = Some (PtNack, u)) /\
    (Forall (fun f => ~ mentions 800 f) fields -> r_info r = Some (if t =? 5 then PtInterest else PtData, u)).
Proof. exact info_link. Qed.
Print Assumptions C58_link_packet.
Example C58_link_packet_nonvacuous :
  is_packet ex_nack /\ unambiguous (wire ex_nack ++ []) /\ plain ex_nack /\ link_field (Node 800 [Leaf 801 [150]]) /\
  exists r, dissector (wire ex_nack) (zlen (wire ex_nack)) = Some r /\ r_end r = Finished.
Proof.
  split; [exact ex_nack_packet|]. split; [apply calm_ok; reflexivity|]. split; [exact ex_nack_plain|]. split.
  - assert (K : forall t, t <> 800 -> t <> 801 -> ~ mentions t (Node 800 [Leaf 801 [150]])).
    { intros t H0 H1 M. inversion M as [e E|t' es e Hin Me]; subst; [cbn in H0; congruence|].
      destruct Hin as [<-|[]]. inversion Me; subst. cbn in H1. congruence. }
    repeat split; apply K; discriminate.
  - eexists. split; [vm_compute; reflexivity|reflexivity].
Qed.

(** An Interest that is shown as a Nack: its parameters look like a Nack field. *)
Theorem C58_interest_as_nack_refuted : exists es r,
  let p := Node 5 (name_element ex_name :: es) in
  is_packet p /\ dissector (wire p) (zlen (wire p)) = Some r /\ r_end r = Finished /\
  exists u, r_info r = Some (PtNack, u).
Proof.
  exists [Leaf 36 [253; 3; 32; 0]]. eexists. split; [|split; [vm_compute; reflexivity|split; [reflexivity|eexists; reflexivity]]].
  split; [wf|]. split; [left; reflexivity|sz].
Qed.
Print Assumptions C58_interest_as_nack_refuted.
(** A Data packet that is shown as an Interest: its link packet has a PIT token of two octets. *)
Theorem C58_data_as_interest_refuted : exists token r,
  let p := Node 100 [Leaf 98 token; Node 80 [ex_data [200; 201; 7]]] in
  is_packet p /\ dissector (wire p) (zlen (wire p)) = Some r /\ r_end r = Finished /\
  exists u, r_info r = Some (PtInterest, u).
Proof.
  exists [5; 0]. eexists. split; [|split; [vm_compute; reflexivity|split; [reflexivity|eexists; reflexivity]]].
  split; [wf|]. split; [right; right; reflexivity|sz].
Qed.
Print Assumptions C58_data_as_interest_refuted.

(** * C59 *)

(** "When multiple NDN packets are part of a single UDP datagram, TCP segment, or WebSocket
    payload, all NDN packets are dissected" is false of all such payloads: if a packet is
    followed by another one, or by its header and at least one more octet, the dissector fails
    after the first packet's tree; there is no "Info", and no more data is requested. *)
Theorem C59_several_packets_refuted : forall p q x rest r,
  is_packet p -> is_packet q ->
  let buf := wire p ++ header q ++ x :: rest in
  (zlen buf < 4294967296)%Z ->
  dissector buf (zlen buf) = Some r ->
  r_end r = Failed /\ r_info r = None /\ r_deseg r = None /\ exists items, r_trees r = [items].
Proof. exact second_fails. Qed.
Print Assumptions C59_several_packets_refuted.
Example C59_several_packets_nonvacuous :
  let buf := wire ex_interest ++ wire ex_interest in
  (exists x rest, buf = wire ex_interest ++ header ex_interest ++ x :: rest) /\
  exists r, dissector buf (zlen buf) = Some r.
Proof. split; [do 2 eexists|eexists]; vm_compute; reflexivity. Qed.

(** A part of a packet that is longer than its header: more data is requested, from the packet's
    first octet on; nothing is shown. *)
Theorem C59_part_of_packet : forall p k,
  is_packet p -> (length (header p) < k < length (wire p))%nat ->
  dissector (firstn k (wire p)) (Z.of_nat k) = Some (Result [] (Some (PtNone, [])) (Some 0%Z) Finished).
Proof. exact part_recognised. Qed.
Print Assumptions C59_part_of_packet.
Example C59_part_of_packet_nonvacuous :
  is_packet ex_interest /\ (length (header ex_interest) < 5 < length (wire ex_interest))%nat.
Proof. split; [exact ex_interest_packet|vm_compute; lia]. Qed.

(** A shorter part is not recognised: nothing is requested, so the packet is not reassembled. *)
Theorem C59_short_part_ignored_refuted : forall p k,
  is_packet p -> (k <= length (header p))%nat -> dissector (firstn k (wire p)) (Z.of_nat k) = None.
Proof. exact part_ignored. Qed.
Print Assumptions C59_short_part_ignored_refuted.
(** a packet with a header of four octets *)
Example C59_short_part_nonvacuous : is_packet (Leaf 6 (repeat 0 300)) /\ header (Leaf 6 (repeat 0 300)) = [6; 253; 1; 44].
Proof. split; [split; [wf|]; split; [right; left; reflexivity|sz]|reflexivity]. Qed.

(** "If the full reassembly is not possible, dissection is not performed." *)
Theorem C59_incomplete_capture : forall buf reported, zlen buf <> reported -> dissector buf reported = None.
Proof. exact truncated. Qed.
Print Assumptions C59_incomplete_capture.
Example C59_incomplete_capture_nonvacuous : zlen (wire ex_interest) <> 1500%Z. Proof. discriminate. Qed.
