(** Properties of ndndump as a program: C70, C71. *)
From Verif Require Import Base TlvModel TlvProofs PingModel DumpModel DumpSpec DumpRunModel DumpRunSpec DumpRunProofs DumpRunProofs2 PropsDump.
From Coq Require Import String List.
Import ListNotations.
Local Open Scope nat_scope.
Local Open Scope list_scope.

(** * C70 ndndump as a program *)

(** Whatever the command line and the answers of libpcap are, ndndump writes exactly what
    [behaves] says to the two streams and ends with the status it says. *)
Theorem C70_program :
  forall (E : env) (P : pcap) (usage version : list text) (regex : text -> text + (text -> bool))
         (cmd : text + arguments) (out err : list text) (st : status),
    (forall ds, pc_devices P = inr ds -> Forall (fun d => d <> []) ds) ->
    st <> Crash ->
    (dump_program E P usage version regex cmd = (Output out err, st) <-> behaves E P usage version regex cmd out err st).
Proof.
  intros E P u v r cmd out err st N C. split; [intros H; exact (prog_behaves E P u v r cmd out err st N H C)|exact (behaves_prog E P u v r cmd out err st)].
Qed.
Print Assumptions C70_program.

(** There is no undefined behaviour if all packets are captured completely. *)
Theorem C70_no_crash :
  forall (E : env) (P : pcap) (usage version : list text) (regex : text -> text + (text -> bool)) (cmd : text + arguments),
    (forall i b c, pc_live P i b = inr c -> complete c) -> (forall f c, pc_file P f = inr c -> complete c) ->
    snd (dump_program E P usage version regex cmd) <> Crash.
Proof. exact no_crash. Qed.
Print Assumptions C70_no_crash.

(** With an empty filter expression, the lines of all NDN packets are printed in the order of
    the capture, on all supported links. *)
Theorem C70_everything :
  forall (E : env) (P : pcap) (usage version : list text) (regex : text -> text + (text -> bool))
         (a : arguments) (action : text) (c : capture) (l : link_type) (lines : list text),
    accepted regex a None -> a_pcap a = [[]] -> source P a action (inr c) -> d_link (c_datalink c) = Some l ->
    Forall2 (fun p line => exists n fields, captured E l (p_cap p) n fields /\ p_len p = length (p_cap p) /\
               line = expected_line (negb (a_no_timestamp a)) (p_sec p) (p_usec p) fields) (c_packets c) lines ->
    c_end c = EndOfFile ->
    exists err, dump_program E P usage version regex (inr a) = (Output lines err, Ended 0).
Proof. exact unfiltered_run. Qed.
Print Assumptions C70_everything.

(** a frame like [ab_frame], from port 6363 *)
Definition ab_ndn : list N :=
  ethernet (zeros 6) (zeros 6) ETH_IP4
    (ipv4 0 (zeros 5) 17 (zeros 2) [10; 0; 0; 1]%N [10; 0; 0; 2]%N (zeros 4) (udp (be 2 6363) (zeros 2) (zeros 2) ab) ++ zeros 3).
Lemma ab_ndn_captured : captured toy DltEther ab_ndn [Comp 8 (str "AB")] ab_fields.
Proof.
  apply F_ether; [|reflexivity|reflexivity].
  apply (C_ip4 toy 0%N (zeros 5) 17%N (zeros 2) [10; 0; 0; 1]%N [10; 0; 0; 2]%N (zeros 4)
           (udp (be 2 6363) (zeros 2) (zeros 2) ab) (zeros 3) [Comp 8 (str "AB")] [str "UDP"; str "length 4"; str "DATA: /AB"]).
  - apply (T_udp toy (be 2 6363) (zeros 2) (zeros 2) ab [Comp 8 (str "AB")] [str "DATA: /AB"]).
    + apply (D_data toy (str "AB") [Comp 8 (str "AB")]); [|reflexivity]. repeat split; vm_compute; auto; try discriminate.
    + repeat split; repeat constructor; vm_compute; auto.
    + repeat split; repeat constructor; vm_compute; auto.
    + repeat split; repeat constructor; vm_compute; auto.
    + vm_compute. discriminate.
  - vm_compute; auto.
  - repeat split; repeat constructor; vm_compute; auto.
  - vm_compute; auto.
  - repeat split; repeat constructor; vm_compute; auto.
  - repeat split; repeat constructor; vm_compute; auto.
  - repeat split; repeat constructor; vm_compute; auto.
  - repeat constructor; vm_compute; auto.
  - reflexivity.
  - vm_compute; lia.
  - vm_compute; discriminate.
Qed.
(** a file with an NDN packet, a packet on other ports, and a packet of type 0x7777 *)
Definition ab_packets : list packet :=
  [Packet ab_ndn (length ab_ndn) 17 42; Packet ab_frame (length ab_frame) 18 0;
   Packet (ethernet (zeros 6) (zeros 6) ETH_NDNSIM ab) 18 19 0].
Definition ab_capture (l : link_type) (ps : list packet) : capture :=
  Capture (Datalink (Some l) (str "1") (Some (str "EN10MB")) (Some (str "Ethernet")))
    (fun x => Selects (fun p => bpf_default (p_cap p) l)) ps EndOfFile.
Definition ab_pcap (l : link_type) (ps : list packet) : pcap :=
  Pcap (inr [str "lo"]) (fun _ _ => inl (str "no permission")) (fun _ => inr (ab_capture l ps)).
Definition ab_args (words : list text) : arguments :=
  Arguments false false None (Some (str "f")) None false false true words.
Definition ab_run (l : link_type) (ps : list packet) (words : list text) :=
  dump_program toy (ab_pcap l ps) [] [] (fun _ => inl []) (inr (ab_args words)).

Example C70_case :
  ab_run DltEther ab_packets [[]] =
    (Output [str "17.000042 IP 10.0.0.1 > 10.0.0.2, UDP, length 4, DATA: /AB";
             str "18.000000 IP 10.0.0.1 > 10.0.0.2, UDP, length 4, DATA: /AB";
             str "19.000000 Ethernet, DATA: /AB"]
            [str "ndndump: reading from file f, link-type EN10MB (Ethernet)"], Ended 0) /\
  ab_run DltEther ab_packets [str "udp"; str "port"] =
    (Output [str "17.000042 IP 10.0.0.1 > 10.0.0.2, UDP, length 4, DATA: /AB"]
            [str "ndndump: reading from file f, link-type EN10MB (Ethernet)"; str "ndndump: using pcap filter: udp port"], Ended 0) /\
  dump_program toy (ab_pcap DltEther ab_packets) [] [] (fun _ => inl [])
    (inr (Arguments false false None None None false false true [])) =
    (Output [] [str "ERROR: Cannot open interface lo: no permission"], Ended 1) /\
  accepted (fun _ => inl []) (ab_args [[]]) None /\
  source (ab_pcap DltEther ab_packets) (ab_args [[]]) (str "reading from file f") (inr (ab_capture DltEther ab_packets)).
Proof.
  split; [vm_compute; reflexivity|]. split; [vm_compute; reflexivity|]. split; [vm_compute; reflexivity|]. split.
  - apply Ac_all; auto.
  - apply (So_file (ab_pcap DltEther ab_packets) (ab_args [[]]) (str "f")); [left; reflexivity|split; [reflexivity|discriminate]].
Qed.

(** * C71 The default capture filter *)

(** Full statement: without a filter expression, ndndump shows the NDN packets of all links
    and tunnels that the manual page lists, and nothing else.  Proved for Ethernet and Linux
    cooked captures: a packet passes iff its Ethernet type is that of NDN, or it is an IPv4
    (not a later fragment) or IPv6 packet with TCP and port 6363 or UDP and port 6363 or
    56363.  Missing: PPP links, of which the statement is false. *)
Theorem C71_selection_partial :
  forall (l : link_type) (b : list N) (ndn : Prop), frame l b ndn -> (bpf_default b l = true <-> ndn).
Proof. exact frame_default. Qed.
Print Assumptions C71_selection_partial.

(** A run without filter expression prints the lines of exactly these packets. *)
Theorem C71_run_partial :
  forall (E : env) (P : pcap) (usage version : list text) (regex : text -> text + (text -> bool))
         (a : arguments) (action : text) (c : capture) (l : link_type) (lss : list (list text)),
    accepted regex a None -> a_pcap a = [] -> source P a action (inr c) -> d_link (c_datalink c) = Some l ->
    compiles_default c l -> Forall2 (shown E l (negb (a_no_timestamp a))) (c_packets c) lss -> c_end c = EndOfFile ->
    exists err, dump_program E P usage version regex (inr a) = (Output (concat lss) err, Ended 0).
Proof. exact default_run. Qed.
Print Assumptions C71_run_partial.

(** Of a trace with NDN packets in PPP frames, nothing is shown without filter expression,
    although PPP is among the links listed in the manual page. *)
Theorem C71_ppp_nothing :
  forall (E : env) (P : pcap) (usage version : list text) (regex : text -> text + (text -> bool))
         (a : arguments) (f : option (text -> bool)) (action : text) (c : capture),
    accepted regex a f -> a_pcap a = [] -> source P a action (inr c) -> d_link (c_datalink c) = Some DltPpp ->
    compiles_default c DltPpp -> Forall (fun p => ppp_ndn (p_cap p)) (c_packets c) -> c_end c = EndOfFile ->
    exists err, dump_program E P usage version regex (inr a) = (Output [] err, Ended 0).
Proof. exact ppp_run. Qed.
Print Assumptions C71_ppp_nothing.

Theorem C71_ppp_refuted :
  exists (b : list N) (n : name) (fields : list text),
    captured toy DltPpp b n fields /\ compiles_default (ab_capture DltPpp [Packet b (length b) 0 0]) DltPpp /\
    fst (ab_run DltPpp [Packet b (length b) 0 0] []) = Output []
      [str "ndndump: reading from file f, link-type EN10MB (Ethernet)"; str "ndndump: using pcap filter: " ++ getDefaultPcapFilter] /\
    fst (ab_run DltPpp [Packet b (length b) 0 0] [[]]) = Output [str "0.000000 PPP, DATA: /AB"]
      [str "ndndump: reading from file f, link-type EN10MB (Ethernet)"].
Proof.
  exists (ppp false false 0 0 (ab ++ [])), [Comp 8 (str "AB")], [str "PPP"; str "DATA: /AB"]. split; [|split; [|split]].
  - apply F_ppp. apply (D_data toy (str "AB") [Comp 8 (str "AB")]); [|reflexivity]. repeat split; vm_compute; auto; try discriminate.
  - eexists. split; [reflexivity|]. reflexivity.
  - vm_compute. reflexivity.
  - vm_compute. reflexivity.
Qed.
Print Assumptions C71_ppp_refuted.

(** NDN packets with the Ethernet type 0x7777, which ndndump can print, are not shown
    without filter expression. *)
Theorem C71_7777_refuted :
  exists (b : list N) (n : name) (fields : list text),
    captured toy DltEther b n fields /\ bpf_default b DltEther = false.
Proof.
  exists (ethernet (zeros 6) (zeros 6) ETH_NDNSIM (ab ++ [])), [Comp 8 (str "AB")], [str "Ethernet"; str "DATA: /AB"]. split.
  - apply F_ether; [|reflexivity|reflexivity]. apply C_ndn; [|right; reflexivity].
    apply (D_data toy (str "AB") [Comp 8 (str "AB")]); [|reflexivity]. repeat split; vm_compute; auto; try discriminate.
  - vm_compute. reflexivity.
Qed.
Print Assumptions C71_7777_refuted.

Example C71_case :
  Forall2 (shown toy DltEther true) ab_packets
    [[str "17.000042 IP 10.0.0.1 > 10.0.0.2, UDP, length 4, DATA: /AB"]; []; []] /\
  compiles_default (ab_capture DltEther ab_packets) DltEther /\
  fst (ab_run DltEther ab_packets []) = Output [str "17.000042 IP 10.0.0.1 > 10.0.0.2, UDP, length 4, DATA: /AB"]
    [str "ndndump: reading from file f, link-type EN10MB (Ethernet)"; str "ndndump: using pcap filter: " ++ getDefaultPcapFilter].
Proof.
  assert (Z : forall k, length (zeros k) = k) by (intros; apply repeat_length).
  assert (C : forall s, (s < 65536)%N -> exists ndn, ndn = (first_fragment (zeros 5) /\ ndn_port 17 s 0) /\
    frame DltEther (ethernet (zeros 6) (zeros 6) ETH_IP4
      (ipv4 0 (zeros 5) 17 (zeros 2) [10; 0; 0; 1]%N [10; 0; 0; 2]%N (zeros 4) (udp (be 2 s) (zeros 2) (zeros 2) ab) ++ zeros 3)) ndn).
  { intros s Hs. eexists. split; [reflexivity|]. apply Fr_ether; [reflexivity|reflexivity|].
    apply (Co_ip4 0%N (zeros 5) 17%N (zeros 2) [10; 0; 0; 1]%N [10; 0; 0; 2]%N (zeros 4) s 0%N
      (be 2 (N.of_nat (8 + length ab)) ++ zeros 2 ++ ab) (zeros 3)); try reflexivity; try exact Hs.
    - repeat split; repeat constructor; vm_compute; auto.
    - vm_compute; lia. }
  split; [|split; [eexists; split; [reflexivity|]; reflexivity|vm_compute; reflexivity]].
  constructor; [|constructor; [|constructor; [|constructor]]].
  - destruct (C 6363%N eq_refl) as (ndn & En & F).
    apply (Sh_ndn toy DltEther true ab_ndn [Comp 8 (str "AB")] ab_fields ndn 17 42 ab_ndn_captured F).
    rewrite En. split; [exists 0%N, 0%N, 0%N, 0%N; reflexivity|left; auto].
  - destruct (C 0%N eq_refl) as (ndn & En & F).
    apply (Sh_other toy DltEther true ab_frame ndn _ 18 0 F).
    rewrite En. intros [_ [[_ [H|H]]|[_ [H|H]]]]; discriminate H.
  - apply (Sh_other toy DltEther true (ethernet (zeros 6) (zeros 6) ETH_NDNSIM ab) (ETH_NDNSIM = ETH_NDN) _ 19 0).
    + apply Fr_ether; [reflexivity|reflexivity|]. apply Co_other; [reflexivity|discriminate|discriminate].
    + discriminate.
Qed.
