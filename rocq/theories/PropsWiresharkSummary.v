(** Properties of the Wireshark dissector: C69 (one-line summaries).

    [dissector buf reported]: see PropsWireshark.v; [r_trees] are the items it makes, and
    [summaries items] are the summaries it then makes of them.  [appended sm k] is what is appended
    to the text of item [k]; [tree_text items sm] is what is appended to the text of the item of
    the whole packet. *)
From Coq Require Import String.
From Verif Require Import Base TlvModel PingModel DumpModel WiresharkModel WiresharkSpec WiresharkProofs5 PropsWireshark
  WiresharkSummaryModel WiresharkSummarySpec WiresharkSummaryProofs2.
Open Scope N_scope.
Open Scope list_scope.

(** For every buffer whose dissection ends without an error: the summaries are made, and the line
    of every item ends with the summary of the items that hang on it. *)
Theorem C69_lines : forall buf reported r items,
  dissector buf reported = Some r -> r_end r = Finished -> In items (r_trees r) ->
  exists sm, summaries items = Ok sm /\
    forall k it, nth_error items k = Some it -> exists s, summary items k s /\
      appended sm k = match s with Some s => str ", " ++ s | None => [] end.
Proof. exact dissector_summaries. Qed.
Print Assumptions C69_lines.
(** octets that are no packet, but hold something like one *)
Example C69_lines_nonvacuous : exists r items sm,
  dissector [1; 2; 3; 5; 9; 253; 0; 7; 2; 8; 0; 12; 1; 7] 14%Z = Some r /\ r_end r = Finished /\ r_trees r = [items] /\
  summaries items = Ok sm /\
  map (appended sm) (seq 0 (length items)) = [str ", Name: /..., InterestLifetime: 7"; []; []; []].
Proof. do 3 eexists. split; [vm_compute; reflexivity|]. split; [reflexivity|]. split; [reflexivity|]. split; vm_compute; reflexivity. Qed.

(** The line of a packet, whatever its content and whatever follows it, unless there is a Lua
    error: the name of the packet's type, and then its fields. *)
Theorem C69_packet_line : forall t es post r l,
  let p := Node t es in
  is_packet p -> (zlen (wire p ++ post) < 4294967296)%Z ->
  dissector (wire p ++ post) (zlen (wire p ++ post)) = Some r -> r_end r = Finished -> fields es l ->
  exists items sm, r_trees r = [items] /\ summaries items = Ok sm /\
    tree_text items sm = str ", " ++ str (type_name t) ++ match l with [] => [] | _ => str ", " ++ joined l end.
Proof. intros t es post r l p. exact (line_of_packet t es post r l). Qed.
Print Assumptions C69_packet_line.

(** fields of the packets of the examples *)
Ltac fld := first
  [ apply fields_nil
  | apply fields_value; [first [apply (says_name ex_name), name_uri_ok | apply (says_name [Comp 8 [75]]), name_uri_ok
                               | apply says_flag; cbn; tauto | apply says_nonce; reflexivity
                               | apply says_integer; cbn; tauto
                               | apply (says_final (Comp 50 [9])), component_text_ok
                               | apply (says_nack 150); cbn; tauto]|]
  | apply fields_inner; [cbn; tauto| |]
  | apply fields_empty; [cbn; tauto| |]
  | apply fields_left_out; [cbn; tauto|]
  | apply fields_unknown; [reflexivity|] ].
Example C69_interest : exists l, fields [name_element ex_name; Leaf 33 []; Leaf 10 [0; 0; 1; 2]; Leaf 12 [15; 160]] l /\
  joined l = str "Name: /A%2F/32=...., CanBePrefix: Yes, Nonce: 258, InterestLifetime: 4000".
Proof. eexists. split; [repeat fld|vm_compute; reflexivity]. Qed.
Example C69_data : exists l,
  fields [name_element ex_name; Node 20 [Leaf 25 [100]; Node 26 [Leaf 50 [9]]]; Leaf 21 [200; 201; 7];
          Node 22 [Leaf 27 [0]; Node 28 [name_element [Comp 8 [75]]]]; Leaf 23 [250; 249; 1; 2]] l /\
  joined l = str "Name: /A%2F/32=...., MetaInfo: FreshnessPeriod: 100, FinalBlockId: 50=%09, SignatureInfo: SignatureType: 0, KeyLocator: Name: /K".
Proof. eexists. split; [repeat fld|vm_compute; reflexivity]. Qed.
(** a Nack: the Interest inside of the fragment is not summed up *)
Example C69_nack : exists l, fields [Node 800 [Leaf 801 [150]]; Node 80 [ex_interest]] l /\
  joined l = str "Nack: NackReason: NoRoute".
Proof. eexists. split; [repeat fld|vm_compute; reflexivity]. Qed.
Example C69_packet_line_nonvacuous :
  let p := ex_data [200; 201; 7] in
  exists r, is_packet p /\ dissector (wire p ++ [1; 2; 3]) (zlen (wire p ++ [1; 2; 3])) = Some r /\ r_end r = Finished.
Proof. cbv zeta. eexists. split; [exact ex_data_packet|]. split; [vm_compute; reflexivity|reflexivity]. Qed.
