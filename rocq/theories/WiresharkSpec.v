(** What the README of the Wireshark dissector promises, independent of its code.  Packets are
    described as their senders build them: elements that hold bytes or further elements. *)
From Coq Require Import String.
From Verif Require Import Base TlvModel PingModel DumpModel WiresharkModel.
Open Scope N_scope.

Inductive element := Leaf (t : N) (v : list N) | Node (t : N) (es : list element).

Definition e_type (e : element) : N := match e with Leaf t _ => t | Node t _ => t end.
(** on the wire *)
Fixpoint wire (e : element) : list N :=
  match e with
  | Leaf t v => tlv t v
  | Node t es => tlv t (flat_map wire es)
  end.
Definition wires (es : list element) : list N := flat_map wire es.
(** TLV-VALUE *)
Definition payload (e : element) : list N :=
  match e with Leaf _ v => v | Node _ es => wires es end.
(** octets of TLV-TYPE and TLV-LENGTH *)
Definition header (e : element) : list N := var_number (e_type e) ++ var_number (N.of_nat (length (payload e))).

(** what the format demands: types from 1 to 2^32 - 1, octets below 256 *)
Inductive well_formed : element -> Prop :=
| wf_leaf t v : 0 < t -> t < 4294967296 -> Forall is_byte v -> well_formed (Leaf t v)
| wf_node t es : 0 < t -> t < 4294967296 -> Forall well_formed es -> well_formed (Node t es).

(** Interest, Data or LpPacket, not longer than the limit of the README *)
Definition is_packet (p : element) : Prop :=
  well_formed p /\ (e_type p = 5 \/ e_type p = 6 \/ e_type p = 100) /\
  0 < N.of_nat (length (payload p)) <= 8800.

Definition zlen (l : list N) : Z := Z.of_nat (length l).

(** number of elements *)
Fixpoint n_elements (e : element) : nat :=
  match e with
  | Leaf _ _ => 1
  | Node _ es => S (list_sum (map n_elements es))
  end.

(** * Octets that nobody can take for elements

    The dissector looks for elements inside of every value.  Numbers need not have the shortest
    form. *)
Inductive lax_number : N -> list N -> Prop :=
| lax1 n : n < 253 -> lax_number n [n]
| lax3 l : length l = 2%nat -> lax_number (of_be l) (253 :: l)
| lax5 l : length l = 4%nat -> lax_number (of_be l) (254 :: l)
| lax9 l : length l = 8%nat -> lax_number (of_be l) (255 :: l).
Inductive lax_elements : list N -> Prop :=
| lax_nil : lax_elements []
| lax_cons t bt bl v rest :
    lax_number t bt -> lax_number (N.of_nat (length v)) bl -> lax_elements rest ->
    lax_elements (bt ++ bl ++ v ++ rest).
Definition opaque (v : list N) : Prop := v = [] \/ ~ lax_elements v.

(** field formats of the packet specification that the dissector relies on *)
Definition field_ok (e : element) : Prop :=
  (e_type e = 10 -> length (payload e) = 4%nat) /\      (* Nonce *)
  (e_type e = 34 -> length (payload e) = 1%nat) /\      (* HopLimit *)
  (e_type e = 26 -> payload e <> []).                   (* FinalBlockId *)

Inductive plain : element -> Prop :=
| plain_leaf t v : opaque v -> field_ok (Leaf t v) -> plain (Leaf t v)
| plain_node t es : field_ok (Node t es) -> Forall plain es -> plain (Node t es).

(** an octet 255 and then six octets 0 or six octets 255: read as a number of nine octets, such
    a length is small, or close to 2^64 *)
Definition risky (l : list N) : Prop :=
  exists a b x, (x = 0 \/ x = 255) /\ l = a ++ 255 :: repeat x 6 ++ b.

(** * NDN URIs (https://docs.named-data.net/NDN-packet-spec/current/name.html) *)
Definition percent (b : N) : text := str "%" ++ hex2 true b.
Definition plain_char (b : N) : Prop :=
  (65 <= b <= 90) \/ (97 <= b <= 122) \/ (48 <= b <= 57) \/ b = 45 \/ b = 46 \/ b = 95 \/ b = 126.

(** text of one octet of a value *)
Inductive char_text : N -> text -> Prop :=
| ct_plain b : plain_char b -> char_text b [b]
| ct_other b : ~ plain_char b -> char_text b (percent b).
Inductive chars_text : list N -> text -> Prop :=
| cs_nil : chars_text [] []
| cs_cons b bs t ts : char_text b t -> chars_text bs ts -> chars_text (b :: bs) (t ++ ts).
(** text of a value: three more periods if there are only periods *)
Inductive value_text : list N -> text -> Prop :=
| vt_periods v : Forall (eq 46) v -> value_text v (v ++ str "...")
| vt_other v t : Exists (fun b => b <> 46) v -> chars_text v t -> value_text v t.
Inductive component_text : component -> text -> Prop :=
| cp_implicit v : component_text (Comp 1 v) (str "sha256digest=" ++ flat_map (hex2 false) v)
| cp_params v : component_text (Comp 2 v) (str "params-sha256=" ++ flat_map (hex2 false) v)
| cp_generic v t : value_text v t -> component_text (Comp 8 v) t
| cp_other ty v t : ty <> 1 -> ty <> 2 -> ty <> 8 -> value_text v t ->
    component_text (Comp ty v) (to_string ty ++ str "=" ++ t).
Inductive components_text : name -> text -> Prop :=
| nt_nil : components_text [] []
| nt_cons c cs t ts : component_text c t -> components_text cs ts ->
    components_text (c :: cs) (str "/" ++ t ++ ts).
Inductive name_uri : name -> text -> Prop :=
| nu_empty : name_uri [] (str "/")
| nu_name n t : n <> [] -> components_text n t -> name_uri n t.

(** a name as an element *)
Definition name_element (n : name) : element := Node 7 (map (fun c => Leaf (c_type c) (c_value c)) n).
Definition name_wf (n : name) : Prop := well_formed (name_element n).

(** * Names and values of fields *)

(** assigned numbers (packet specification, NDNLPv2); "" for others *)
Definition type_names : list (N * string) :=
  [(1, "ImplicitSha256DigestComponent"); (2, "ParametersSha256DigestComponent"); (5, "Interest");
   (6, "Data"); (7, "Name"); (8, "GenericNameComponent"); (10, "Nonce"); (12, "InterestLifetime");
   (18, "MustBeFresh"); (20, "MetaInfo"); (21, "Content"); (22, "SignatureInfo"); (23, "SignatureValue");
   (24, "ContentType"); (25, "FreshnessPeriod"); (26, "FinalBlockId"); (27, "SignatureType");
   (28, "KeyLocator"); (29, "KeyDigest"); (30, "ForwardingHint"); (33, "CanBePrefix"); (34, "HopLimit");
   (36, "ApplicationParameters"); (80, "Fragment"); (81, "Sequence"); (82, "FragIndex"); (83, "FragCount");
   (98, "PitToken"); (100, "LpPacket"); (800, "Nack"); (801, "NackReason"); (812, "IncomingFaceId");
   (816, "NextHopFaceId"); (820, "CachePolicy"); (821, "CachePolicyType"); (832, "CongestionMark");
   (836, "Ack"); (840, "TxSequence")]%string.
Definition type_name (t : N) : string := match kget t type_names with Some s => s | None => ""%string end.

(** types whose values are non-negative integers *)
Definition integer_types : list N := [12; 24; 25; 27; 81; 82; 83; 812; 816; 832; 836; 840].
Definition integer (v : list N) : Prop := In (length v) [1; 2; 4; 8]%nat.

Record labelled (it : item) (e : element) : Prop := {
  l_name : it_name it = type_name (e_type e);
  l_uri : forall n, e = name_element n -> exists u, it_value it = Some (VText u) /\ name_uri n u;
  l_component : In (e_type e) [1; 2; 8] ->
    exists u, it_value it = Some (VText u) /\ component_text (Comp (e_type e) (payload e)) u;
  l_final : forall c es, e = Node 26 (c :: es) ->
    exists u, it_value it = Some (VText u) /\ component_text (Comp (e_type c) (payload c)) u;
  l_integer : In (e_type e) integer_types -> integer (payload e) ->
    it_value it = Some (VU64 (Z.of_N (of_be (payload e))));
  l_nonce : e_type e = 10 -> length (payload e) = 4%nat -> it_value it = Some (VNumber (Z.of_N (of_be (payload e))));
  l_hops : e_type e = 34 -> length (payload e) = 1%nat -> it_value it = Some (VNumber (Z.of_N (of_be (payload e))));
  l_nack : forall r t, e = Leaf 801 (nni r) -> In (r, t) [(50, str "Congestion"); (100, str "Duplicate"); (150, str "NoRoute")] ->
    it_value it = Some (VText t);
  l_cache : e = Leaf 821 (nni 1) -> it_value it = Some (VText (str "NoCache"));
  l_flag : In (e_type e) [18; 33] -> it_value it = Some (VText (str "Yes"));      (* MustBeFresh, CanBePrefix *)
  l_nothing : In (e_type e) [5; 6; 20; 21; 22; 23; 28; 29; 30; 36; 80; 98; 100; 800; 820] -> it_value it = None
}.

(** [displays items parent o e]: among the items is one for [e], which starts at offset [o]; it
    covers the element's octets, has its type, name and value, and hangs on the item [parent];
    the elements inside hang on it *)
Inductive displays (items : list item) : option nat -> Z -> element -> Prop :=
| displays_leaf parent o t v k it :
    nth_error items k = Some it -> it_parent it = parent ->
    it_off it = o -> it_size it = zlen (wire (Leaf t v)) -> it_type it = LNum (Z.of_N t) ->
    labelled it (Leaf t v) ->
    displays items parent o (Leaf t v)
| displays_node parent o t es k it :
    nth_error items k = Some it -> it_parent it = parent ->
    it_off it = o -> it_size it = zlen (wire (Node t es)) -> it_type it = LNum (Z.of_N t) ->
    labelled it (Node t es) ->
    displays_list items (Some k) (o + zlen (header (Node t es)))%Z es ->
    displays items parent o (Node t es)
with displays_list (items : list item) : option nat -> Z -> list element -> Prop :=
| displays_nil parent o : displays_list items parent o []
| displays_cons parent o e es :
    displays items parent o e -> displays_list items parent (o + zlen (wire e))%Z es ->
    displays_list items parent o (e :: es).

(** the whole-packet item holds exactly the elements of [p] *)
Definition shows_exactly (items : list item) (p : element) : Prop :=
  displays items None 0 p /\ length items = n_elements p.

(** * Items of any buffer *)

(** an item stands for an element of the buffer *)
Definition genuine (buf : list N) (it : item) : Prop :=
  exists pre bt bl v post, buf = pre ++ bt ++ bl ++ v ++ post /\
    it_off it = zlen pre /\ it_size it = zlen (bt ++ bl ++ v) /\
    lax_number (Z.to_N (lval (it_type it))) bt /\ lax_number (N.of_nat (length v)) bl.
(** it lies within the element it hangs on *)
Definition nested (items : list item) (it : item) : Prop :=
  forall k, it_parent it = Some k -> exists p, nth_error items k = Some p /\
    (it_off p < it_off it /\ it_off it + it_size it <= it_off p + it_size p)%Z.

(** * The "Info" column *)
Inductive mentions (t : N) : element -> Prop :=
| mentions_here e : e_type e = t -> mentions t e
| mentions_inside t' es e : In e es -> mentions t e -> mentions t (Node t' es).

(** [e] is [p] or lies somewhere inside of it *)
Inductive inside (e : element) : element -> Prop :=
| inside_self : inside e e
| inside_node t es c : In c es -> inside e c -> inside e (Node t es).

(** a buffer in which no length is read as a number of nine octets *)
Definition unambiguous (buf : list N) : Prop :=
  Forall is_byte buf /\ (zlen buf < 65536)%Z /\ ~ risky buf.
(** fields of a link packet that cannot be taken for network packets or names *)
Definition link_field (e : element) : Prop := ~ mentions 5 e /\ ~ mentions 6 e /\ ~ mentions 7 e.
