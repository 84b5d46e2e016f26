(** Model of tools/dissect/dissector.{hpp,cpp}.

    Environment (ndn-cxx): [read_tlv] etc. of TlvModel.v; Block::fromStream rejects elements
    larger than [limit] (8800 in ndn-cxx); ndn::escape; TLV-TYPE numbers of tlv.hpp and
    tlv-security.hpp.  When Block::parse meets a sub-element whose header cannot be read, it
    throws; [keep] tells whether the sub-elements read before stay in the block (they do in
    the versions of ndn-cxx known to the author: only the check of TLV-LENGTH clears them). *)
From Verif Require Import Base TlvModel PingModel DumpModel.
From Coq Require Import String List.
Import ListNotations.
Local Open Scope N_scope.
Local Open Scope list_scope.

(** dissector.cpp L59-62, in UTF-8 *)
Definition GLYPH_VERTICAL : text := [226; 148; 130; 32].
Definition GLYPH_VERTICAL_AND_RIGHT : text := [226; 148; 156; 226; 148; 128].
Definition GLYPH_UP_AND_RIGHT : text := [226; 148; 148; 226; 148; 128].
Definition GLYPH_SPACE : text := [32; 32].

(** dissector.cpp L64-75; [br]: m_branches *)
Fixpoint printBranches (br : list bool) : text :=
  match br with
  | [] => []
  | [b] => if b then GLYPH_VERTICAL_AND_RIGHT else GLYPH_UP_AND_RIGHT
  | b :: br' => (if b then GLYPH_VERTICAL else GLYPH_SPACE) ++ printBranches br'
  end.

(** dissector.cpp L78-129 *)
Definition TLV_DICT : list (N * text) := [
  (5, str "Interest"); (6, str "Data"); (7, str "Name");
  (8, str "GenericNameComponent"); (1, str "ImplicitSha256DigestComponent");
  (2, str "ParametersSha256DigestComponent"); (32, str "KeywordNameComponent");
  (50, str "SegmentNameComponent"); (52, str "ByteOffsetNameComponent"); (54, str "VersionNameComponent");
  (56, str "TimestampNameComponent"); (58, str "SequenceNumNameComponent");
  (33, str "CanBePrefix"); (18, str "MustBeFresh"); (30, str "ForwardingHint"); (10, str "Nonce");
  (12, str "InterestLifetime"); (34, str "HopLimit"); (36, str "ApplicationParameters");
  (44, str "InterestSignatureInfo"); (46, str "InterestSignatureValue");
  (20, str "MetaInfo"); (21, str "Content"); (22, str "SignatureInfo"); (23, str "SignatureValue");
  (24, str "ContentType"); (25, str "FreshnessPeriod"); (26, str "FinalBlockId");
  (27, str "SignatureType"); (28, str "KeyLocator"); (29, str "KeyDigest"); (38, str "SignatureNonce");
  (40, str "SignatureTime"); (42, str "SignatureSeqNum");
  (253, str "ValidityPeriod"); (254, str "NotBefore"); (255, str "NotAfter");
  (258, str "AdditionalDescription"); (512, str "DescriptionEntry"); (513, str "DescriptionKey");
  (514, str "DescriptionValue"); (128, str "SafeBag"); (129, str "EncryptedKey")].
Fixpoint dict_find (d : list (N * text)) (t : N) : option text :=
  match d with
  | [] => None
  | (k, v) :: d' => if k =? t then Some v else dict_find d' t
  end.

Definition AppPrivateBlock1 : N := 128.
Definition AppPrivateBlock2 : N := 32767.

(** dissector.cpp L131-149 *)
Definition type_label (t : N) : text :=
  match dict_find TLV_DICT t with
  | Some s => s
  | None =>
      if ((AppPrivateBlock1 <=? t) && (t <=? 252)) || (AppPrivateBlock2 <=? t)
      then str "UNKNOWN_APP" else str "RESERVED"
  end.
Definition printType (t : N) : text := to_string t ++ str " (" ++ type_label t ++ str ")".

(** ndn::escape: percent-encoding *)
Definition unreserved (c : N) : bool :=
  ((48 <=? c) && (c <=? 57)) || ((65 <=? c) && (c <=? 90)) || ((97 <=? c) && (c <=? 122)) ||
  (c =? 45) || (c =? 46) || (c =? 95) || (c =? 126).
Definition hex_digit (d : N) : N := if d <? 10 then 48 + d else 55 + d.
Definition escape (v : list N) : text :=
  flat_map (fun c => if unreserved c then [c] else [37; hex_digit (c / 16); hex_digit (c mod 16)]) v.

Section Dissect.
Variable keep : bool.
Variable limit : N.
Variable dissectContent : bool.       (* dissector.hpp L33 *)

(** Block::parse and Block::elements of ndn-cxx *)
Fixpoint parse_loop (fuel : nat) (l : list N) (acc : list (N * list N)) : list (N * list N) :=
  match l with
  | [] => rev acc
  | _ =>
      match fuel with
      | O => []
      | S fuel' =>
          match read_type l with
          | None => if keep then rev acc else []
          | Some (t, l1) =>
              match read_var l1 with
              | None => if keep then rev acc else []
              | Some (n, l2) =>
                  if n <=? N.of_nat (length l2)
                  then parse_loop fuel' (skipn (N.to_nat n) l2) ((t, firstn (N.to_nat n) l2) :: acc)
                  else []
              end
          end
      end
  end.
Definition parse_elements (v : list N) : list (N * list N) := parse_loop (length v) v [].

(** dissector.cpp L159-161 *)
Definition is_opaque (t : N) : bool :=
  (t =? 23) || (t =? 46) || ((t =? 21) && negb dissectContent).

Record dst := Dst { d_out : text; d_br : list bool }.

(** m_branches.back() = false; [None]: the vector is empty *)
Definition set_back (br : list bool) : option (list bool) :=
  match br with [] => None | _ => Some (removelast br ++ [false]) end.
Definition pop_back (br : list bool) : option (list bool) :=
  match br with [] => None | _ => Some (removelast br) end.

(** dissector.cpp L151-186.  [None]: undefined behaviour, or [fuel] too small. *)
Fixpoint printBlock (fuel : nat) (b : N * list N) (s : dst) : option dst :=
  match fuel with
  | O => None
  | S fuel' =>
      let elements := if is_opaque (fst b) then [] else parse_elements (snd b) in
      let out := d_out s ++ printBranches (d_br s) ++ printType (fst b) ++
                 str " (size: " ++ to_string (N.of_nat (length (snd b))) ++ str ")" ++
                 match elements with [] => str " [[" ++ escape (snd b) ++ str "]]" | _ => [] end ++ [10] in
      match (fix loop (es : list (N * list N)) (s : dst) : option dst :=      (* L178-184 *)
               match es with
               | [] => Some s
               | e :: es' =>
                   match (match es' with [] => set_back (d_br s) | _ => Some (d_br s) end) with
                   | None => None
                   | Some br =>
                       match printBlock fuel' e (Dst (d_out s) br) with
                       | None => None
                       | Some s' => loop es' s'
                       end
                   end
               end) elements (Dst out (d_br s ++ [true])) with
      | None => None
      | Some s' =>
          match pop_back (d_br s') with
          | None => None
          | Some br => Some (Dst (d_out s') br)
          end
      end
  end.

(** Block::fromStream of ndn-cxx *)
Definition from_stream (l : list N) : option (N * list N * list N) :=
  match read_tlv l with
  | Some (t, v, rest) => if N.of_nat (length (tlv t v)) <=? limit then Some (t, v, rest) else None
  | None => None
  end.

(** dissector.cpp L42-56.  Result: what is written to the output, and the offset in the error
    message if there is one. *)
Fixpoint dissect_loop (fuel : nat) (l : list N) (offset : nat) (s : dst) : option (dst * option nat) :=
  match l with
  | [] => Some (s, None)
  | _ =>
      match fuel with
      | O => None
      | S fuel' =>
          match from_stream l with
          | None => Some (s, Some offset)
          | Some (t, v, rest) =>
              match printBlock (S (length v)) (t, v) s with
              | None => None
              | Some s' => dissect_loop fuel' rest (offset + length (tlv t v)) s'
              end
          end
      end
  end.
Definition dissect (l : list N) : option (dst * option nat) := dissect_loop (length l) l 0 (Dst [] []).
End Dissect.
