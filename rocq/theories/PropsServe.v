(** Properties of the programs ndnpingserver and ndnputchunks: C66, C67. *)
From Verif Require Import Base TlvModel PingModel PutchunksModel DumpModel ServeModel ServeSpec ServeProofs ServeProofs2.
From Coq Require Import String.
From Coq Require Import List.
Import ListNotations.
Local Open Scope list_scope.
Local Open Scope N_scope.

(** for the examples: a digest signature, and names written as their octets *)
Definition sha_sign (d : packet) : list N * list N := ([27; 1; 0], repeat 0 32).
Definition ex_comp (c : component) : text := c_value c.
Definition ex_name (n : name) : text := flat_map (fun c => 47 :: c_value c) n.
Definition ex_interest (i : interest) : text := ex_name (i_name i).
Definition ex_data (d : packet) : text := ex_name (k_name d).
Definition ex_digest (d : packet) : component := Comp 1 [].

(** * C66 ndnpingserver reports what it does *)

(** Unless the registration of the prefix fails: the server answers the Interests under
    prefix/ping that arrive before it is interrupted, at most as many as the limit says, up to
    the first one whose answer is longer than a packet may be.  It prints one line for each of
    them (and for that one).  It exits with status 1 exactly if there is such a long one, and
    with status 0 exactly if it was interrupted or the limit is reached; then the number that
    it prints is the number of answers. *)
Theorem C66_output :
  forall (sign : packet -> list N * list N) (name_uri : name -> text) (comp_uri : component -> text)
         (o : sopts) (quiet : bool) (es : list psevent),
    ~ In PsRegFailure es ->
    let s := ps_run sign name_uri comp_uri o quiet es in
    let sizes d := (octets (fst (sign d)), octets (snd (sign d))) in
    let line i := if quiet then []
                  else str "interest received: seq=" ++ match last_comp (i_name i) with Some c => comp_uri c | None => [] end ++ [10] in
    let T := taken o es in
    let G := up_to_long sizes o T in
    let too_long := Nat.ltb (List.length G) (List.length T) in
    let stopped := registered es && (interrupted es || limit_reached o es) in
    answers (s_hist (ps_server s)) = map (ping_answer o) G /\
    ps_status s = (if too_long then Some 1%Z else if stopped then Some 0%Z else None) /\
    ps_stdout name_uri o s =
      (str "PING SERVER " ++ name_uri (s_prefix o) ++ [10]) ++
      flat_map line (firstn (S (List.length G)) T) ++
      (if too_long then []
       else if stopped then
         [10] ++ str "--- " ++ name_uri (s_prefix o) ++ str " ping server statistics ---" ++ [10] ++
         to_string (N.of_nat (List.length T)) ++ str " packets processed" ++ [10]
       else []).
Proof. exact (fun sign nu cu o q es H => server_program sign nu cu o q es H). Qed.
Print Assumptions C66_output.

(** If the registration fails, the program exits with status 1 and prints no statistics. *)
Theorem C66_unregistered :
  forall (sign : packet -> list N * list N) (name_uri : name -> text) (comp_uri : component -> text)
         (o : sopts) (quiet : bool) (es1 es2 : list psevent),
    ~ In PsRegSuccess es1 -> ~ In PsRegFailure es1 ->
    let s := ps_run sign name_uri comp_uri o quiet (es1 ++ PsRegFailure :: es2) in
    let s1 := ps_run sign name_uri comp_uri o quiet es1 in
    ps_status s = Some 1%Z /\
    ps_stdout name_uri o s = ps_out s1 /\
    answers (s_hist (ps_server s)) = answers (s_hist (ps_server s1)).
Proof. exact (fun sign nu cu o q es1 es2 => server_unregistered sign nu cu o q es1 es2). Qed.
Print Assumptions C66_unregistered.

(** Which answers are not too long: at most 8768 octets of name components, payload and
    signature suffice; with more than 8786 an answer is too long. *)
Theorem C66_sizes :
  forall (sign : packet -> list N * list N) (o : sopts) (i : interest),
    let d := ping_answer o i in
    let n := name_size (i_name i) + N.of_nat (s_size o) + octets (fst (sign d)) + octets (snd (sign d)) in
    let sizes d := (octets (fst (sign d)), octets (snd (sign d))) in
    (n <= 8768 -> answerable sizes o i = true) /\ (8786 < n -> answerable sizes o i = false).
Proof. exact (fun sign o i => conj (ping_fits sign o i) (ping_not_fits sign o i)). Qed.
Print Assumptions C66_sizes.

(** The expectation that only SIGINT and the limit end a registered server is wrong: whatever
    its payload, there is an Interest, not longer than an Interest may be, that ends it with
    status 1 whenever it arrives. *)
Theorem C66_ended_by_interest :
  forall (sign : packet -> list N * list N) (name_uri : name -> text) (comp_uri : component -> text)
         (o : sopts) (quiet : bool),
    name_size (s_prefix o) <= 8490 ->
    exists i, interest_size i = 8800 /\
      forall es, ~ In PsRegFailure es -> interrupted es = false -> limit_reached o es = false ->
        ps_status (ps_run sign name_uri comp_uri o quiet (es ++ [PsInterest i])) = Some 1%Z.
Proof. exact (fun sign nu cu o q => server_can_be_ended sign nu cu o q). Qed.
Print Assumptions C66_ended_by_interest.

(** /A with a limit of two pings; the third Interest is not for the server *)
Definition ex_so (size : nat) : sopts := SOpts [Comp 8 [65]] 1000 2 size.
Definition ex_ping (seq : N) : interest := Interest [Comp 8 [65]; Comp 8 [112; 105; 110; 103]; Comp 8 [seq]] false true.
Example C66_example :
  let s := ps_run sha_sign ex_name ex_comp (ex_so 5) false
             [PsRegSuccess; PsInterest (ex_ping 55); PsInterest (Interest [Comp 8 [66]] true false); PsInterest (ex_ping 56); PsInterest (ex_ping 57)] in
  ps_status s = Some 0%Z /\
  ps_stdout ex_name (ex_so 5) s =
    str "PING SERVER /A" ++ [10] ++ str "interest received: seq=7" ++ [10] ++ str "interest received: seq=8" ++ [10; 10] ++
    str "--- /A ping server statistics ---" ++ [10] ++ str "2 packets processed" ++ [10].
Proof. vm_compute. split; reflexivity. Qed.
(** An Interest without sequence number is answered, and "ping" is printed as its number. *)
Example C66_example_no_number :
  let s := ps_run sha_sign ex_name ex_comp (ex_so 5) false [PsRegSuccess; PsInterest (Interest [Comp 8 [65]; Comp 8 [112; 105; 110; 103]] true false)] in
  ps_stdout ex_name (ex_so 5) s = str "PING SERVER /A" ++ [10] ++ str "interest received: seq=ping" ++ [10] /\
  List.length (answers (s_hist (ps_server s))) = 1%nat.
Proof. vm_compute. split; reflexivity. Qed.
(** A payload of 8800 octets is accepted by the program, but it ends with the first ping. *)
Theorem C66_large_payload_refuted :
  exists es, ps_status (ps_run sha_sign ex_name ex_comp (ex_so (N.to_nat 8800)) false es) = None /\
             ps_status (ps_run sha_sign ex_name ex_comp (ex_so (N.to_nat 8800)) false (es ++ [PsInterest (ex_ping 55)])) = Some 1%Z.
Proof. exists [PsRegSuccess]. vm_compute. split; reflexivity. Qed.
Print Assumptions C66_large_payload_refuted.
Example C66_example_unregistered :
  ps_status (ps_run sha_sign ex_name ex_comp (ex_so 5) false [PsInterest (ex_ping 55); PsRegFailure; PsInterest (ex_ping 56)]) = Some 1%Z.
Proof. reflexivity. Qed.

(** * C67 ndnputchunks reports what it publishes, and goes on serving it *)

(** What the program sends and prints: at first how many packets it has published, which is
    the number of pieces that the input needs; then it sends the replies to the Interests that
    arrive before the registration fails, up to the first that is longer than a packet may be.
    With the verbose option it prints two lines for each reply, also for that one.  It ends
    with status 1 exactly if there is such a long one; it reports if the registration fails. *)
Theorem C67_output :
  forall (digest : packet -> component) (sign : packet -> list N * list N) (name_uri : name -> text) (comp_uri : component -> text)
         (interest_text : interest -> text) (data_text : packet -> text)
         (u : putopts) (cv : convention) (now0 : N) (o : popts) (prefix : name) (input : list N) (es : list cpevent),
    now0 < 2 ^ 64 -> (0 < po_size o)%nat ->
    let P := make_producer cv now0 o prefix input in
    let s := cp_run digest sign name_uri comp_uri interest_text data_text u cv P es in
    let sizes d := (octets (fst (sign d)), octets (snd (sign d))) in
    let R := flat_map (fun e => match e with
                                | CpInterest now w i => map (fun r => (w, i, r)) (producer_replies digest cv now P i)
                                | CpRegFailure _ => [] end) (before_failure es) in
    let G := up_to_unsendable sizes R in
    let too_long := Nat.ltb (List.length G) (List.length R) in
    cp_sent s = map snd G /\
    cp_status s = (if too_long then Some 1%Z else match failure_reason es with Some _ => Some 0%Z | None => None end) /\
    cp_stdout s = (if pu_showVersion u then match last_comp (pr_vprefix P) with Some c => comp_uri c | None => [] end ++ [10] else []) /\
    cp_stderr s =
      greeting name_uri (pu_quiet u) (pieces_needed (po_size o) input) (pr_vprefix P) ++
      flat_map (message interest_text data_text (pu_verbose u) (discovery_name (pr_prefix P))) (firstn (S (List.length G)) R) ++
      (if too_long then []
       else match failure_reason es with
            | Some r => str "ERROR: Failed to register prefix '" ++ name_uri (pr_prefix P) ++ str "' (" ++ r ++ str ")" ++ [10]
            | None => [] end).
Proof.
  exact (fun digest sign nu cu it dt u cv now0 o prefix input es Hn Hs =>
           chunks_program digest sign nu cu it dt u cv now0 Hn o Hs prefix input es).
Qed.
Print Assumptions C67_output.

(** As long as the program runs, a request for a segment is answered by this segment, if the
    versioned name, the segment size and the signature have at most 8744 octets. *)
Theorem C67_segment_served :
  forall (digest : packet -> component) (sign : packet -> list N * list N) (name_uri : name -> text) (comp_uri : component -> text)
         (interest_text : interest -> text) (data_text : packet -> text)
         (u : putopts) (cv : convention) (now0 : N) (o : popts) (prefix : name) (input : list N)
         (m : N) (es : list cpevent) (now : N) (w : nat) (canBePrefix mustBeFresh : bool) (k : N),
    now0 < 2 ^ 64 -> (0 < po_size o)%nat ->
    let P := make_producer cv now0 o prefix input in
    let run := cp_run digest sign name_uri comp_uri interest_text data_text u cv P in
    (forall d, octets (fst (sign d)) + octets (snd (sign d)) <= m) ->
    name_size (pr_vprefix P) + N.of_nat (po_size o) + m <= 8744 ->
    k < 2 ^ 64 -> k < pieces_needed (po_size o) input ->
    cp_status (run es) = None ->
    let n := pr_vprefix P ++ [segment_comp cv k] in
    let s := run (es ++ [CpInterest now w (Interest n canBePrefix mustBeFresh)]) in
    cp_status s = None /\
    cp_sent s = cp_sent (run es) ++
      [RpData (Packet n (firstn (po_size o) (skipn (N.to_nat k * po_size o) input))
                      (Some (segment_comp cv (pieces_needed (po_size o) input - 1))) (po_fresh o))].
Proof.
  exact (fun digest sign nu cu it dt u cv now0 o prefix input m es now w cbp mbf k Hn Hs =>
           segment_served digest sign nu cu it dt u cv now0 Hn o Hs prefix input m es now w cbp mbf k).
Qed.
Print Assumptions C67_segment_served.

(** It never exits with status 1, and no reply is lost, if also no Interest is longer than 8788
    octets and the names in requests for metadata are not too long. *)
Theorem C67_keeps_serving :
  forall (digest : packet -> component) (sign : packet -> list N * list N) (name_uri : name -> text) (comp_uri : component -> text)
         (interest_text : interest -> text) (data_text : packet -> text)
         (u : putopts) (cv : convention) (now0 : N) (o : popts) (prefix : name) (input : list N)
         (m : N) (es : list cpevent),
    now0 < 2 ^ 64 -> (0 < po_size o)%nat ->
    let P := make_producer cv now0 o prefix input in
    let s := cp_run digest sign name_uri comp_uri interest_text data_text u cv P es in
    (forall d, octets (fst (sign d)) + octets (snd (sign d)) <= m) ->
    name_size (pr_vprefix P) + N.of_nat (po_size o) + m <= 8744 ->
    (forall now w i, In (CpInterest now w i) es -> N.of_nat w <= 8788 /\
       (is_prefix_of (discovery_name (pr_prefix P)) (i_name i) = true ->
        name_size (i_name i) + name_size (pr_vprefix P) + m <= 8749)) ->
    cp_status s <> Some 1%Z /\
    cp_sent s = flat_map (fun e => match e with CpInterest now _ i => producer_replies digest cv now P i | CpRegFailure _ => [] end)
                  (before_failure es).
Proof.
  exact (fun digest sign nu cu it dt u cv now0 o prefix input m es Hn Hs =>
           chunks_never_fail digest sign nu cu it dt u cv now0 Hn o Hs prefix input m es).
Qed.
Print Assumptions C67_keeps_serving.

(** Without the limit on the Interests this is wrong: there is always an Interest, not longer
    than an Interest may be, that ends the program with status 1. *)
Theorem C67_ended_by_interest :
  forall (digest : packet -> component) (sign : packet -> list N * list N) (name_uri : name -> text) (comp_uri : component -> text)
         (interest_text : interest -> text) (data_text : packet -> text)
         (u : putopts) (cv : convention) (now0 : N) (o : popts) (prefix : name) (input : list N),
    now0 < 2 ^ 64 -> (0 < po_size o)%nat ->
    let P := make_producer cv now0 o prefix input in
    let run := cp_run digest sign name_uri comp_uri interest_text data_text u cv P in
    name_size (pr_prefix P) <= 8490 ->
    exists i, interest_size i = 8800 /\
      forall es now, cp_status (run es) = None -> cp_status (run (es ++ [CpInterest now (N.to_nat 8800) i])) = Some 1%Z.
Proof.
  exact (fun digest sign nu cu it dt u cv now0 o prefix input Hn Hs =>
           chunks_can_be_ended digest sign nu cu it dt u cv now0 Hn o Hs prefix input).
Qed.
Print Assumptions C67_ended_by_interest.

Definition ex_po (size : nat) : popts := POpts size 4000.
Definition ex_producer (size : nat) (input : list N) : producer := make_producer CvTyped 7 (ex_po size) [Comp 8 [65]] input.
Notation ex_run u p := (cp_run ex_digest sha_sign ex_name ex_comp ex_interest ex_data u CvTyped p).
Definition ex_segment (k : N) : interest := Interest [Comp 8 [65]; Comp 54 [7]; Comp 50 [k]] false false.
Example C67_example :
  let s := ex_run (PutOpts false true true) (ex_producer 2 [1; 2; 3]) [CpInterest 9 20 (ex_segment 1); CpInterest 9 20 (ex_segment 2)] in
  cp_status s = None /\
  cp_sent s = [RpData (Packet [Comp 8 [65]; Comp 54 [7]; Comp 50 [1]] [3] (Some (Comp 50 [1])) 4000); RpNack] /\
  cp_stdout s = [7; 10] /\
  cp_stderr s = str "Loading input ..." ++ [10] ++ str "Published 2 Data packets with prefix /A/" ++ [7; 10] ++
    str "Interest: /A/" ++ [7] ++ str "/" ++ [1; 10] ++ str "Data: /A/" ++ [7] ++ str "/" ++ [1; 10] ++
    str "Interest: /A/" ++ [7] ++ str "/" ++ [2; 10] ++ str "Interest cannot be satisfied, sending Nack" ++ [10].
Proof. vm_compute. repeat split. Qed.
Example C67_example_hypotheses :
  (forall d, octets (fst (sha_sign d)) + octets (snd (sha_sign d)) <= 35) /\
  name_size (pr_vprefix (ex_producer (N.to_nat 8000) [1; 2; 3])) + 8000 + 35 <= 8744 /\
  1 < pieces_needed 2 [1; 2; 3].
Proof. split; [intros d; vm_compute; discriminate|]. split; vm_compute; [discriminate|reflexivity]. Qed.
(** A registration that fails is reported on the standard error, but the exit status is 0. *)
Theorem C67_registration_status_refuted :
  exists es, cp_status (ex_run (PutOpts false false false) (ex_producer 2 [1]) es) = Some 0%Z /\
             cp_sent (ex_run (PutOpts false false false) (ex_producer 2 [1]) es) = [].
Proof. exists [CpRegFailure (str "timeout")]. vm_compute. split; reflexivity. Qed.
Print Assumptions C67_registration_status_refuted.
(** A segment size of 8800 octets is accepted, but the program ends when a full segment is
    requested. *)
Theorem C67_large_segments_refuted :
  exists es, cp_status (ex_run (PutOpts true false false) (ex_producer (N.to_nat 8800) (repeat 0 (N.to_nat 8800))) es) = Some 1%Z.
Proof. exists [CpInterest 9 20 (ex_segment 0)]. vm_compute. reflexivity. Qed.
Print Assumptions C67_large_segments_refuted.
