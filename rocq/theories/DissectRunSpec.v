(** What ndn-dissect does as a program. *)
From Verif Require Import Base TlvModel TlvProofs PingModel PeekModel DumpModel DissectModel DissectSpec DissectProofs DissectRunModel.
From Coq Require Import String List.
Import ListNotations.
Local Open Scope N_scope.
Local Open Scope list_scope.

(** [reads stdin open_file f s]: the octets of the command line argument [f] *)
Inductive reads (stdin : stream) (open_file : text -> option stream) : option text -> option stream -> Prop :=
| Re_stdin : reads stdin open_file None (Some stdin)
| Re_dash : reads stdin open_file (Some (str "-")) (Some stdin)
| Re_file f : f <> str "-" -> reads stdin open_file (Some f) (open_file f).

Section Behaviour.
Variable keep : bool.
Variable limit : N.
Variable what : list N -> text.
Variables program usage version : text.
Variable stdin : stream.
Variable open_file : text -> option stream.

Inductive dissect_behaves : text + dissect_args -> dissect_result -> Prop :=
| Db_wrong e : dissect_behaves (inl e) (DissectResult [] (unlines [str "ERROR: " ++ e]) 2)
| Db_help a : da_help a = true -> dissect_behaves (inr a) (DissectResult usage [] 0)
| Db_version a : da_help a = false -> da_version a = true -> dissect_behaves (inr a) (DissectResult version [] 0)
| Db_no_file a f : da_help a = false -> da_version a = false -> da_file a = Some f -> reads stdin open_file (Some f) None ->
    dissect_behaves (inr a) (DissectResult [] (unlines [program ++ str ": " ++ f ++ str ": File does not exist or is unreadable"]) 3)
(* the trees of the elements of the input, in their order *)
| Db_all a s es xs : da_help a = false -> da_version a = false -> reads stdin open_file (da_file a) (Some s) ->
    st_octets s = encode_all es -> Forall (fits limit) es -> Forall2 (shown keep (da_content a)) es xs ->
    dissect_behaves (inr a) (DissectResult (unlines (forest_lines type_label escape xs)) [] 0)
(* the trees of the elements before the first place where there is none, and the offset of
   this place *)
| Db_some a s es rest xs : da_help a = false -> da_version a = false -> reads stdin open_file (da_file a) (Some s) ->
    st_octets s = encode_all es ++ rest -> rest <> [] -> from_stream limit rest = None ->
    Forall (fits limit) es -> Forall2 (shown keep (da_content a)) es xs ->
    dissect_behaves (inr a)
      (DissectResult (unlines (forest_lines type_label escape xs))
        (unlines [str "ERROR: " ++ what rest ++ str " at offset " ++ to_string (N.of_nat (length (encode_all es)))]) 0).
End Behaviour.

(** ndn-dissect, reading the standard input *)
Definition plain (content : bool) : text + dissect_args := inr (DissectArgs false false content None).

(** * The Data packet of ndnpoke *)
Definition octets_name (n : name) : Prop := Forall (fun c => type_ok (c_type c) /\ Forall is_byte (c_value c)) n.
Definition name_value (n : name) : list N := encode_all (map (fun c => (c_type c, c_value c)) n).
(** FreshnessPeriod (25) and FinalBlockId (26) *)
Definition meta_value (o : poke_opts) : list N :=
  (if Z.ltb 0 (pp_fresh o) then tlv 25 (nni (Z.to_N (pp_fresh o))) else []) ++
  (if pp_final o then match rev (pp_name o) with c :: _ => tlv 26 (tlv (c_type c) (c_value c)) | [] => [] end else []).
