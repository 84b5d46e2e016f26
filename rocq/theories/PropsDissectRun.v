(** Properties of ndn-dissect as a program: C72. *)
From Verif Require Import Base TlvModel TlvProofs PingModel PeekModel PeekPokeModel DumpModel DissectModel DissectSpec DissectProofs DissectRunModel DissectRunSpec DissectRunProofs DissectPipe.
From Coq Require Import String List.
Import ListNotations.
Local Open Scope N_scope.
Local Open Scope list_scope.

(** * C72 ndn-dissect as a program *)

(** Full statement: ndn-dissect reads the given file or the standard input and prints the trees
    of its elements; whatever cannot be read or shown is reported on the standard error, and the
    exit status tells whether that happened.  Proved: what the program writes and its exit
    status, for all inputs.  Missing: the exit status is 0 even if the input is malformed, and a
    failure to read is not reported. *)
Theorem C72_program_partial :
  forall (keep : bool) (limit : N) (what : list N -> text) (program usage version : text) (stdin : stream)
         (open_file : text -> option stream) (cmd : text + dissect_args) (r : dissect_result),
    Forall is_byte (st_octets stdin) -> (forall f s, open_file f = Some s -> Forall is_byte (st_octets s)) ->
    (dissect_program keep limit what program usage version stdin open_file cmd = Some r <->
     dissect_behaves keep limit what program usage version stdin open_file cmd r).
Proof.
  intros k l w p u v i o cmd r Bi Bo. split; [exact (dissect_prog_behaves k l w p u v i o cmd r Bi Bo)|exact (dissect_behaves_prog k l w p u v i o cmd r)].
Qed.
Print Assumptions C72_program_partial.

(** There is a result for every input. *)
Theorem C72_total :
  forall (keep : bool) (limit : N) (what : list N -> text) (program usage version : text) (stdin : stream)
         (open_file : text -> option stream) (cmd : text + dissect_args),
    Forall is_byte (st_octets stdin) -> (forall f s, open_file f = Some s -> Forall is_byte (st_octets s)) ->
    exists r, dissect_behaves keep limit what program usage version stdin open_file cmd r.
Proof. exact dissect_total_behaves. Qed.
Print Assumptions C72_total.

(** [ndnpeek NAME | ndn-dissect] shows the tree of the Data packet, whichever was received. *)
Theorem C72_behind_ndnpeek :
  forall (keep : bool) (limit : N) (what : list N -> text) (program usage version : text) (open_file : text -> option stream)
         (o : peek_opts) (v : list N) (x : tree) (es' : list peek_event),
    pk_payloadOnly o = false -> fits limit (6, v) -> shown keep false (6, v) x ->
    dissect_program keep limit what program usage version
      (Stream (concat (pk_out (peek_run o (PeData (tlv 6 v) :: es')))) false) open_file (plain false) =
    Some (DissectResult (unlines (tree_lines type_label escape x)) [] 0).
Proof. exact peek_pipe. Qed.
Print Assumptions C72_behind_ndnpeek.

(** The example of the README: what ndnpoke read from its standard input is what ndn-dissect
    shows as Content, below the name, after ndnpeek succeeded. *)
Theorem C72_readme :
  forall (digest : TlvModel.packet -> component) (sign : TlvModel.packet -> list N * list N),
    (forall d, Forall is_byte (fst (sign d)) /\ Forall is_byte (snd (sign d))) ->
  forall (keep : bool) (what : list N -> text) (program usage version : text) (open_file : text -> option stream)
         (i : interest) (po : peek_opts) (o : poke_opts) (input : list N) (es : list pp_event),
    let d := poke_data o input in
    let y := pp_run digest sign i po o input es in
    octets_name (pp_name o) -> Forall is_byte input -> data_fits sign d = true -> pk_payloadOnly po = false ->
    peek_status (pk_result (np_peek y)) = 0%Z ->
    exists xn xm xi,
      shown keep false (7, name_value (pp_name o)) xn /\ shown keep false (20, meta_value o) xm /\
      shown keep false (22, fst (sign d)) xi /\
      dissect_program keep 8800 what program usage version (Stream (concat (pk_out (np_peek y))) false) open_file (plain false) =
      Some (DissectResult (unlines (tree_lines type_label escape
        (Branch 6 (length (encode_all (data_elements sign d))) [xn; xm; Leaf 21 input; xi; Leaf 23 (snd (sign d))]))) [] 0).
Proof. exact demo. Qed.
Print Assumptions C72_readme.

(** an environment without files *)
Definition run_on (s : stream) : option dissect_result :=
  dissect_program false 8800 (fun _ => str "bad") (str "ndn-dissect") [] [] s (fun _ => None) (plain false).

(** The exit status does not tell malformed input from intact input. *)
Theorem C72_status_refuted :
  exists (good bad : list N) (r1 r2 : dissect_result),
    run_on (Stream good false) = Some r1 /\ run_on (Stream bad false) = Some r2 /\
    dr_stderr r1 = [] /\ dr_stderr r2 = str "ERROR: bad at offset 4" ++ [10] /\ dr_status r1 = dr_status r2.
Proof.
  exists (tlv 6 [7; 0]), (tlv 6 [7; 0] ++ [5; 9]). eexists _, _. split; [vm_compute; reflexivity|]. split; [vm_compute; reflexivity|].
  vm_compute. auto.
Qed.
Print Assumptions C72_status_refuted.

(** A failure to read, such as that of a directory, looks like the end of the input. *)
Theorem C72_read_failure :
  forall (keep : bool) (limit : N) (what : list N -> text) (program usage version : text) (open_file : text -> option stream)
         (l : list N) (cmd : text + dissect_args),
    dissect_program keep limit what program usage version (Stream l true) open_file cmd =
    dissect_program keep limit what program usage version (Stream l false) open_file cmd.
Proof. exact read_failure_silent. Qed.
Print Assumptions C72_read_failure.
Theorem C72_read_failure_refuted :
  exists (dir : stream), st_fails dir = true /\ run_on dir = Some (DissectResult [] [] 0).
Proof. exists (Stream [] true). vm_compute. auto. Qed.
Print Assumptions C72_read_failure_refuted.

Example C72_case :
  let d := encode_all [(7, tlv 8 [65]); (20, []); (21, [104; 105]); (22, tlv 27 [0]); (23, [1; 2])] in
  run_on (Stream (concat (pk_out (peek_run (PeekOpts false true) [PeData (tlv 6 d)]))) false) =
    Some (DissectResult (unlines [
      str "6 (Data) (size: 20)";
      TEE ++ str "7 (Name) (size: 3)";
      VERT ++ CORNER ++ str "8 (GenericNameComponent) (size: 1) [[A]]";
      TEE ++ str "20 (MetaInfo) (size: 0) [[]]";
      TEE ++ str "21 (Content) (size: 2) [[hi]]";
      TEE ++ str "22 (SignatureInfo) (size: 3)";
      VERT ++ CORNER ++ str "27 (SignatureType) (size: 1) [[%00]]";
      CORNER ++ str "23 (SignatureValue) (size: 2) [[%01%02]]"]) [] 0) /\
  fits 8800 (6, d) /\
  dissect_program false 8800 (fun _ => str "bad") (str "ndn-dissect") [] [] (Stream [] false) (fun _ => None)
    (inr (DissectArgs false false true (Some (str "x")))) =
    Some (DissectResult [] (unlines [str "ndn-dissect: x: File does not exist or is unreadable"]) 3).
Proof.
  split; [vm_compute; reflexivity|]. split; [|vm_compute; reflexivity].
  split; [split; [split; reflexivity|reflexivity]|]. split; [repeat constructor|vm_compute; discriminate].
Qed.
(** ndnpoke registers, receives the Interest of ndnpeek and answers *)
Example C72_case_readme :
  let sg := fun _ : TlvModel.packet => ([27; 1; 0], [9; 9]) in
  let o := PokeOpts [Comp 8 [65]] 10 true false false in
  let y := pp_run (fun _ => Comp 1 []) sg (Interest [Comp 8 [65]] false false) (PeekOpts false false) o [104; 105] [NpReg; NpInterest; NpData] in
  octets_name (pp_name o) /\ data_fits sg (poke_data o [104; 105]) = true /\ peek_status (pk_result (np_peek y)) = 0%Z /\
  exists r, run_on (Stream (concat (pk_out (np_peek y))) false) = Some r /\ dr_status r = 0 /\ dr_stderr r = [].
Proof.
  split; [repeat constructor|]. split; [reflexivity|]. split; [vm_compute; reflexivity|].
  eexists. split; [vm_compute; reflexivity|]. vm_compute. auto.
Qed.
