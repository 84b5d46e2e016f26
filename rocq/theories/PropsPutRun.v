(** ndnputchunks as a program: C80. *)
From Verif Require Import Base TlvModel PingModel PutchunksModel PutchunksSpec DumpModel DissectSpec ServeModel ServeSpec PutRunModel PutRunSpec PutRunProofs.
From Coq Require Import String List.
Import ListNotations.
Local Open Scope Z_scope.
Local Open Scope list_scope.

(** * C80 ndnputchunks does what its manual page says *)
(** Whatever the command line, the input and whatever happens: the packets sent, both output
    streams and the exit status are as specified in PutRunSpec. *)
Theorem C80_program :
  forall (digest : packet -> component) (sign : packet -> list N * list N) (name_uri : name -> text) (comp_uri : component -> text)
         (interest_text : interest -> text) (data_text : packet -> text) (usage version : text) (default_cv : convention)
         (parse_signing : text -> signing) (parse_name : text -> name + text) (start_error : option text)
         (load_error : name -> list N -> option text) (put_error : text)
         (cmd : text + put_args) (now : N) (input : list N) (es : list put_happens),
    (now < 2 ^ 64)%N ->
    put_behaves digest sign name_uri comp_uri interest_text data_text usage version default_cv parse_signing parse_name
      start_error load_error put_error now input es cmd
      (put_program digest sign name_uri comp_uri interest_text data_text usage version default_cv parse_signing parse_name
         start_error load_error put_error cmd now input es).
Proof. exact put_program_spec. Qed.
Print Assumptions C80_program.

(** Every Data packet that it sends is one of the segments of the input, or metadata that contains
    the name of this version. *)
Theorem C80_sent :
  forall (digest : packet -> component) (sign : packet -> list N * list N) (name_uri : name -> text) (comp_uri : component -> text)
         (interest_text : interest -> text) (data_text : packet -> text) (usage version : text) (default_cv : convention)
         (parse_signing : text -> signing) (parse_name : text -> name + text) (start_error : option text)
         (load_error : name -> list N -> option text) (put_error : text)
         (a : put_args) (now : N) (input : list N) (es : list put_happens),
    (now < 2 ^ 64)%N ->
    let r := put_program digest sign name_uri comp_uri interest_text data_text usage version default_cv parse_signing parse_name
               start_error load_error put_error (inr a) now input es in
    uo_sent r <> [] ->
    exists cv n plain v chunks, put_accepts default_cv parse_signing a cv /\ parse_name (ua_prefix a) = inl n /\
      versioned cv now n plain v /\ segmentation (N.to_nat (ua_size a)) input chunks /\
      forall d, In (RpData d) (uo_sent r) -> (exists k, segment a cv plain v chunks k d) \/
        (exists now' w i, In (UServe (CpInterest now' w i)) es /\ for_metadata plain i /\
           d = Packet (i_name i ++ [version_comp cv now'; segment_comp cv 0]) (encode_name (plain ++ [v])) None 10).
Proof.
  exact (fun dg sg nu cu it dt us v d ps pn se le pe a now input es H =>
    behaves_sent _ _ _ _ _ _ _ _ _ _ _ _ _ _ _ _ _ _ _ (put_program_spec dg sg nu cu it dt us v d ps pn se le pe (inr a) now input es H)).
Qed.
Print Assumptions C80_sent.

(** The program has no way to end successfully: the exit status 0 (without --help and --version)
    means that the registration of the prefix has failed. *)
Theorem C80_status_zero :
  forall (digest : packet -> component) (sign : packet -> list N * list N) (name_uri : name -> text) (comp_uri : component -> text)
         (interest_text : interest -> text) (data_text : packet -> text) (usage version : text) (default_cv : convention)
         (parse_signing : text -> signing) (parse_name : text -> name + text) (start_error : option text)
         (load_error : name -> list N -> option text) (put_error : text)
         (a : put_args) (now : N) (input : list N) (es : list put_happens),
    (now < 2 ^ 64)%N ->
    let r := put_program digest sign name_uri comp_uri interest_text data_text usage version default_cv parse_signing parse_name
               start_error load_error put_error (inr a) now input es in
    ua_help a = false -> ua_version a = false -> uo_end r = UExited 0 ->
    exists reason front plain, In (UServe (CpRegFailure reason)) es /\
      uo_stderr r = front ++ unlines [str "ERROR: Failed to register prefix '" ++ name_uri plain ++ str "' (" ++ reason ++ str ")"].
Proof.
  exact (fun dg sg nu cu it dt us v d ps pn se le pe a now input es H =>
    behaves_zero _ _ _ _ _ _ _ _ _ _ _ _ _ _ _ _ _ _ _ (put_program_spec dg sg nu cu it dt us v d ps pn se le pe (inr a) now input es H)).
Qed.
Print Assumptions C80_status_zero.

(** Five octets in segments of two, with -v -p and the marker convention: requests for the last
    segment, for one that does not exist, for the content, for metadata, and a foreign one. *)
Definition c80_uri (n : name) : text := flat_map (fun c => 47%N :: c_value c) n.
Definition c80_args (quiet verbose : bool) (size : N) (conv : text) : put_args :=
  PutArgs false false (str "/A") 1000 size conv [] true quiet verbose.
Definition c80_run (a : put_args) (es : list put_happens) : put_result :=
  put_program (fun _ => Comp 1 []) (fun _ => ([27; 1; 0], repeat 0 32)%N) c80_uri (fun _ => str "v=7") (fun i => c80_uri (i_name i))
    (fun d => c80_uri (k_name d)) (str "USAGE") [] CvTyped (fun _ => SgValid) (fun _ => inl [Comp 8 (str "A")]) None (fun _ _ => None)
    (str "too long") (inr a) 7 [1; 2; 3; 4; 5]%N es.
Definition c80_name (cs : list (list N)) : name := map (Comp 8) (str "A" :: cs).
Definition c80_asks (n : name) : put_happens := UServe (CpInterest 9 100 (Interest n true false)).
Example C80_run :
  c80_run (c80_args false true 2 (str "m"))
    [c80_asks (c80_name [[253; 7]; [0; 2]]%N); c80_asks (c80_name [[253; 7]; [0; 3]]%N); c80_asks (c80_name []);
     c80_asks (c80_name [] ++ [Comp 32 (str "metadata")]); c80_asks [Comp 8 (str "B")]] =
  PutResult
    [RpData (Packet (c80_name [[253; 7]; [0; 2]]%N) [5%N] (Some (Comp 8 [0; 2]%N)) 1000); RpNack;
     RpData (Packet (c80_name [[253; 7]; [0; 0]]%N) [1; 2]%N (Some (Comp 8 [0; 2]%N)) 1000);
     RpData (Packet (c80_name [] ++ [Comp 32 (str "metadata"); Comp 8 [253; 9]%N; Comp 8 [0; 0]%N]) [7; 7; 8; 1; 65; 8; 2; 253; 7]%N None 10)]
    (unlines [str "v=7"])
    (unlines
       [ str "Loading input ..."; str "Published 3 Data packets with prefix /A/" ++ [253; 7]%N;
         str "Interest: /A/" ++ [253; 7; 47; 0; 2]%N; str "Data: /A/" ++ [253; 7; 47; 0; 2]%N;
         str "Interest: /A/" ++ [253; 7; 47; 0; 3]%N; str "Interest cannot be satisfied, sending Nack";
         str "Interest: /A"; str "Data: /A/" ++ [253; 7; 47; 0; 0]%N;
         str "Discovery Interest: /A/metadata"; str "Sending metadata: /A/metadata/" ++ [253; 9; 47; 0; 0]%N ])
    URunning.
Proof. vm_compute. reflexivity. Qed.
(** The registration fails; a wrong convention; a wrong size. *)
Example C80_failures :
  c80_run (c80_args true false 5 []) [UServe (CpRegFailure (str "no route")); c80_asks (c80_name [])] =
    PutResult [] (unlines [str "v=7"]) (unlines [str "ERROR: Failed to register prefix '/A' (no route)"]) (UExited 0) /\
  c80_run (c80_args true false 5 (str "x")) [] = PutResult [] [] (unlines [str "ERROR: 'x' is not a valid naming convention"]) (UExited 2) /\
  c80_run (c80_args true false 8801 []) [] = PutResult [] [] (unlines [str "ERROR: --size must be between 1 and 8800"]) (UExited 2).
Proof. vm_compute. repeat split; reflexivity. Qed.
