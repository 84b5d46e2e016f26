(** What the one-line summaries of the Wireshark dissector should say, independent of its code. *)
From Coq Require Import String.
From Verif Require Import Base TlvModel PingModel DumpModel WiresharkModel WiresharkSpec.
Open Scope N_scope.
Open Scope list_scope.

(** elements whose lines sum up the fields inside: Interest, Data, MetaInfo, SignatureInfo,
    KeyLocator, ForwardingHint, LpPacket, Nack, CachePolicy *)
Definition summed_up : list N := [5; 6; 20; 22; 28; 30; 100; 800; 820].

(** "a, b, c" *)
Definition joined (l : list text) : text :=
  match l with [] => [] | t :: ts => t ++ flat_map (fun u => str ", " ++ u) ts end.

(** * In terms of the items, for every buffer *)
Definition item_value (v : value) : text :=
  match v with VText t => t | VNumber z => to_string (Z.to_N z) | VU64 z => to_string (Z.to_N z) end.

(** the items that hang on item [k], in the order of their octets *)
Definition hanging (items : list item) (k : nat) (l : list nat) : Prop :=
  (forall j, In j l <-> exists it, nth_error items j = Some it /\ it_parent it = Some k) /\
  (forall l1 a l2 b l3, l = l1 ++ a :: l2 ++ b :: l3 -> exists x y,
     nth_error items a = Some x /\ nth_error items b = Some y /\ (it_off x + it_size x <= it_off y)%Z).

(** [summary items k s]: the summary of item [k] *)
Inductive summary (items : list item) : nat -> option text -> Prop :=
| summary_no k it : nth_error items k = Some it ->
    (forall t, In t summed_up -> it_type it <> LNum (Z.of_N t)) -> summary items k None
| summary_empty k it t l : nth_error items k = Some it -> it_type it = LNum (Z.of_N t) -> In t summed_up ->
    hanging items k l -> parts items l [] -> summary items k None
| summary_fields k it t l p ps : nth_error items k = Some it -> it_type it = LNum (Z.of_N t) -> In t summed_up ->
    hanging items k l -> parts items l (p :: ps) -> summary items k (Some (joined (p :: ps)))
(** what the items [l] contribute *)
with parts (items : list item) : list nat -> list text -> Prop :=
| parts_nil : parts items [] []
| parts_unknown j l ps it : nth_error items j = Some it -> it_name it = ""%string ->
    parts items l ps -> parts items (j :: l) ps
| parts_value j l ps it v : nth_error items j = Some it -> it_name it <> ""%string -> it_value it = Some v ->
    parts items l ps -> parts items (j :: l) ((str (it_name it) ++ str ": " ++ item_value v) :: ps)
| parts_inner j l ps it s : nth_error items j = Some it -> it_name it <> ""%string -> it_value it = None ->
    summary items j (Some s) -> parts items l ps -> parts items (j :: l) ((str (it_name it) ++ str ": " ++ s) :: ps)
| parts_silent j l ps it : nth_error items j = Some it -> it_name it <> ""%string -> it_value it = None ->
    summary items j None -> parts items l ps -> parts items (j :: l) ps.

(** * In terms of the elements that the sender has put in *)

(** the value of a field *)
Inductive says : element -> text -> Prop :=
| says_name n u : name_uri n u -> says (name_element n) u
| says_component t v u : In t [1; 2; 8] -> component_text (Comp t v) u -> says (Leaf t v) u
| says_flag t v : In t [18; 33] -> says (Leaf t v) (str "Yes")
| says_integer t v : In t integer_types -> integer v -> says (Leaf t v) (to_string (of_be v))
| says_nonce v : length v = 4%nat -> says (Leaf 10 v) (to_string (of_be v))
| says_hops x : says (Leaf 34 [x]) (to_string x)
| says_final c u : component_text c u -> says (Node 26 [Leaf (c_type c) (c_value c)]) u
| says_nack r t : In (r, t) [(50, str "Congestion"); (100, str "Duplicate"); (150, str "NoRoute")] ->
    says (Leaf 801 (nni r)) t
| says_cache : says (Leaf 821 (nni 1)) (str "NoCache").

(** elements that are left out of summaries: Content, SignatureValue, KeyDigest,
    ApplicationParameters, Fragment, PitToken *)
Definition left_out : list N := [21; 23; 29; 36; 80; 98].

Definition field_line (e : element) (t : text) : text := str (type_name (e_type e)) ++ str ": " ++ t.

(** [fields es l]: what the elements [es] contribute to the summary of the element they are in *)
Inductive fields : list element -> list text -> Prop :=
| fields_nil : fields [] []
| fields_value e es t l : says e t -> fields es l -> fields (e :: es) (field_line e t :: l)
| fields_inner t inner p ps es l : In t summed_up -> fields inner (p :: ps) -> fields es l ->
    fields (Node t inner :: es) (field_line (Node t inner) (joined (p :: ps)) :: l)
| fields_empty t inner es l : In t summed_up -> fields inner [] -> fields es l -> fields (Node t inner :: es) l
| fields_left_out e es l : In (e_type e) left_out -> fields es l -> fields (e :: es) l
| fields_unknown e es l : type_name (e_type e) = ""%string -> fields es l -> fields (e :: es) l.
