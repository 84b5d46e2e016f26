(** TLV trees and how they should be printed, independent of the dissector. *)
From Verif Require Import Base TlvModel TlvProofs PingModel DumpModel.
From Coq Require Import String List.
Import ListNotations.
Local Open Scope N_scope.
Local Open Scope list_scope.

(** * Trees *)
Inductive tree :=
| Leaf (t : N) (v : list N)
| Branch (t : N) (size : nat) (cs : list tree).

Definition elements_ok (es : list (N * list N)) : Prop := Forall (fun e => elem_ok (fst e) (snd e)) es.
(** a TLV-TYPE and a TLV-LENGTH can be read *)
Definition has_header (l : list N) : Prop :=
  exists t l1 n l2, read_type l = Some (t, l1) /\ read_var l1 = Some (n, l2).

(** [v] is a sequence of the elements [es] *)
Definition sequence (v : list N) (es : list (N * list N)) : Prop := elements_ok es /\ v = encode_all es.
(** [v] starts with the elements [es], and what follows is not an element since its header
    cannot be read *)
Definition cut_sequence (v : list N) (es : list (N * list N)) : Prop :=
  elements_ok es /\ exists r, r <> [] /\ ~ has_header r /\ v = encode_all es ++ r.

(** the sub-elements shown for a value: those it consists of; if it does not consist of
    elements, none ([keep]: those before an unreadable header) *)
Definition divided (keep : bool) (v : list N) (es : list (N * list N)) : Prop :=
  sequence v es \/
  (keep = true /\ cut_sequence v es) \/
  (es = [] /\ (forall es', ~ sequence v es') /\ (keep = true -> forall es', ~ cut_sequence v es')).

(** signature values, and Content unless its dissection is requested *)
Definition opaque_type (content : bool) (t : N) : Prop :=
  t = 23 \/ t = 46 \/ (t = 21 /\ content = false).

(** the tree of an element *)
Inductive shown (keep content : bool) : N * list N -> tree -> Prop :=
| Sh_leaf t v : opaque_type content t \/ divided keep v [] -> shown keep content (t, v) (Leaf t v)
| Sh_branch t v es cs : ~ opaque_type content t -> es <> [] -> divided keep v es ->
    Forall2 (shown keep content) es cs -> shown keep content (t, v) (Branch t (length v) cs).

(** * Printing *)
(** the name of a type, by the tables of the NDN packet format, certificate format and
    ndn-cxx SafeBag specifications, by type number *)
Definition standard_name (t : N) : option text :=
  match t with
  | 1 => Some (str "ImplicitSha256DigestComponent") | 2 => Some (str "ParametersSha256DigestComponent")
  | 5 => Some (str "Interest") | 6 => Some (str "Data") | 7 => Some (str "Name") | 8 => Some (str "GenericNameComponent")
  | 10 => Some (str "Nonce") | 12 => Some (str "InterestLifetime") | 18 => Some (str "MustBeFresh")
  | 20 => Some (str "MetaInfo") | 21 => Some (str "Content") | 22 => Some (str "SignatureInfo")
  | 23 => Some (str "SignatureValue") | 24 => Some (str "ContentType") | 25 => Some (str "FreshnessPeriod")
  | 26 => Some (str "FinalBlockId") | 27 => Some (str "SignatureType") | 28 => Some (str "KeyLocator")
  | 29 => Some (str "KeyDigest") | 30 => Some (str "ForwardingHint") | 32 => Some (str "KeywordNameComponent")
  | 33 => Some (str "CanBePrefix") | 34 => Some (str "HopLimit") | 36 => Some (str "ApplicationParameters")
  | 38 => Some (str "SignatureNonce") | 40 => Some (str "SignatureTime") | 42 => Some (str "SignatureSeqNum")
  | 44 => Some (str "InterestSignatureInfo") | 46 => Some (str "InterestSignatureValue")
  | 50 => Some (str "SegmentNameComponent") | 52 => Some (str "ByteOffsetNameComponent")
  | 54 => Some (str "VersionNameComponent") | 56 => Some (str "TimestampNameComponent")
  | 58 => Some (str "SequenceNumNameComponent")
  | 128 => Some (str "SafeBag") | 129 => Some (str "EncryptedKey")
  | 253 => Some (str "ValidityPeriod") | 254 => Some (str "NotBefore") | 255 => Some (str "NotAfter")
  | 258 => Some (str "AdditionalDescription") | 512 => Some (str "DescriptionEntry")
  | 513 => Some (str "DescriptionKey") | 514 => Some (str "DescriptionValue")
  | _ => None
  end.
Definition application_type (t : N) : Prop := 128 <= t <= 252 \/ 32767 <= t.

Section Print.
Variable label : N -> text.          (* the name of a type *)
Variable esc : list N -> text.       (* the printed form of a value *)

Definition caption (t : N) (size : nat) : text :=
  to_string t ++ str " (" ++ label t ++ str ") (size: " ++ to_string (N.of_nat size) ++ str ")".

(** a subtree: its first line behind [a], the others behind [b] *)
Definition hang (a b : text) (ls : list text) : list text :=
  match ls with [] => [] | l :: ls' => (a ++ l) :: map (app b) ls' end.

Definition VERT : text := [226; 148; 130; 32].                    (* "│ " *)
Definition TEE : text := [226; 148; 156; 226; 148; 128].          (* "├─" *)
Definition CORNER : text := [226; 148; 148; 226; 148; 128].       (* "└─" *)
Definition BLANK : text := [32; 32].

Fixpoint tree_lines (x : tree) : list text :=
  match x with
  | Leaf t v => [caption t (length v) ++ str " [[" ++ esc v ++ str "]]"]
  | Branch t size cs =>
      caption t size ::
      (fix kids (cs : list tree) : list text :=
         match cs with
         | [] => []
         | [c] => hang CORNER BLANK (tree_lines c)
         | c :: cs' => hang TEE VERT (tree_lines c) ++ kids cs'
         end) cs
  end.
Definition forest_lines (xs : list tree) : list text := flat_map tree_lines xs.
End Print.
Definition unlines (ls : list text) : text := flat_map (fun l => l ++ [10]) ls.

Fixpoint nodes (x : tree) : nat :=
  match x with
  | Leaf _ _ => 1%nat
  | Branch _ _ cs => S ((fix sum (cs : list tree) : nat := match cs with [] => 0%nat | c :: cs' => (nodes c + sum cs')%nat end) cs)
  end.

(** numbers in range, bytes *)
Inductive tree_ok : tree -> Prop :=
| Ok_leaf t v : elem_ok t v -> Forall is_byte v -> tree_ok (Leaf t v)
| Ok_branch t size cs : type_ok t -> u64 (N.of_nat size) -> Forall tree_ok cs -> tree_ok (Branch t size cs).
