(** ndnping and ndnpingserver as programs that talk to each other: C82. *)
From Verif Require Import Base TlvModel TlvProofs PingModel PeekModel PutchunksModel DumpModel DissectSpec PingRunModel PingRunSpec ServerRunModel ServerRunSpec
  PairRunSpec PairRunProofs.
From Coq Require Import String List ZArith Lia.
Import ListNotations.
Local Open Scope Z_scope.
Local Open Scope list_scope.

(** * C82 What ndnping and ndnpingserver report fits together *)
Section Environment.
(** the environment of ndnping, as in C78 *)
Variables (nonce : N -> list N) (parse_name : text -> option name) (uri : name -> text) (usage version : text) (stamp : Z -> text)
  (word64 : N) (face_error : bool) (send_error : N -> text).
(** the environment of ndnpingserver, as in C79 *)
Variables (sign : packet -> list N * list N) (comp_uri : component -> text) (server_usage server_version : text) (server_stamp : Z -> text)
  (start_error : Z -> bool) (put_error : text).
Notation ndnping := (ping_program nonce parse_name uri usage version stamp word64 face_error send_error).
Notation ndnpingserver := (server_program sign parse_name uri comp_uri server_usage server_version server_stamp start_error put_error).

(** The network may lose, delay, reorder and refuse packets, and either side may be interrupted.
    If it invents nothing and gives no Interest twice to the server, then the number of packets
    that the server claims to have processed is at least the number that ndnping claims to have
    received, and at most the number that it claims to have transmitted. *)
Theorem C82_counts :
  (word64 < 2 ^ 64)%N ->
  forall (a : ping_args) (n : name) (t0 : Z) (es : list (Z * ping_happens)),
  (forall k, ga_start a = Some k -> (k < 2 ^ 64)%N) -> plausible_run t0 es -> ping_accepts parse_name a n -> Forall comp_ok n ->
  forall (b : server_args) (m : name) (ses : list (Z * server_happens)),
  let r := ndnping (inr a) t0 es in
  let s := ndnpingserver (inr b) ses in
  ga_version a = false -> In (go_end r) [GExited 0; GExited 1] ->
  va_help b = false -> va_version b = false -> parse_name (va_prefix b) = Some m -> vo_end s = VExited 0 ->
  only_answers a n es (vo_sent s) -> only_pings (go_wire r) ses ->
  exists rx nk, says_at_end (uri n) (go_stdout r) (length (go_wire r)) rx nk /\ processed (uri m) (vo_stdout s) (length (vo_sent s)) /\
    (rx <= length (vo_sent s) <= length (go_wire r))%nat.
Proof.
  exact (pair_counts nonce parse_name uri usage version stamp word64 face_error send_error sign comp_uri server_usage server_version server_stamp start_error put_error).
Qed.

(** The server is left alone and its answers are not too long.  If all pings that were asked for
    have been sent, every one reaches the server, and every answer comes back in time, then ndnping
    says that it has received all of them and exits with status 0. *)
Theorem C82_succeeds :
  (word64 < 2 ^ 64)%N ->
  forall (a : ping_args) (n : name) (t0 : Z) (es : list (Z * ping_happens)),
  (forall k, ga_start a = Some k -> (k < 2 ^ 64)%N) -> plausible_run t0 es -> ping_accepts parse_name a n -> Forall comp_ok n ->
  forall (b : server_args) (ses : list (Z * server_happens)) (c : Z),
  let r := ndnping (inr a) t0 es in
  let s := ndnpingserver (inr b) ses in
  ga_help a = false -> ga_version a = false -> face_error = false -> clock_fits (ga_interval a) -> clock_fits (ga_timeout a) ->
  ga_count a = Some c -> Z.of_nat (length (go_wire r)) = c ->
  (forall t what, ~ In (t, PhFails what) es) -> (forall t k code, ~ In (t, PhNack k code) es) ->
  serves parse_name start_error b n ses ->
  (forall i d, for_server n i -> reply b i d -> In (i_name i) (asked ses) -> short_enough sign d) ->
  all_arrive (go_wire r) ses -> all_return a n es (go_wire r) (vo_sent s) ->
  go_end r = GExited 0 /\ go_stderr r = [] /\ says_at_end (uri n) (go_stdout r) (Z.to_nat c) (Z.to_nat c) 0.
Proof.
  exact (pair_succeeds nonce parse_name uri usage version stamp word64 face_error send_error sign comp_uri server_usage server_version server_stamp start_error put_error).
Qed.
End Environment.
Print Assumptions C82_counts.
Print Assumptions C82_succeeds.

(** Two pings for /A, starting with 7; the server stops after two answers. *)
Definition c82_name : name := [Comp 8 (str "A")].
Definition c82_args : ping_args := PingArgs false false (Some (str "/A")) 10 4000 (Some 2) (Some 7%N) None false false.
Definition c82_ping (es : list (Z * ping_happens)) : ping_result :=
  ping_program (fun _ => [1; 2; 3; 4]%N) (fun _ => Some c82_name) (fun _ => str "/A") [] [] (fun _ => str "NOW") 0 false (fun _ => []) (inr c82_args) 0 es.
Definition c82_served : server_args := ServerArgs false false (str "/A") 1000 2 3 false true.
Definition c82_server (ses : list (Z * server_happens)) : server_result :=
  server_program (fun _ => ([27; 1; 0], repeat 0 32)%N) (fun _ => Some c82_name) (fun _ => str "/A") c_value (str "USAGE") []
    (fun _ => str "NOW") (fun _ => false) (str "too long") (inr c82_served) ses.
Definition c82_events : list (Z * ping_happens) := [(1500000, PhData 7); (10000000, PhTimer); (12000000, PhData 8)].
Definition c82_interest (k : N) : interest := Interest (ping_name c82_args c82_name k) false true.
Definition c82_asks : list (Z * server_happens) := [(100, VRegSuccess); (1000000, VInterest (c82_interest 7)); (10500000, VInterest (c82_interest 8))].

Lemma c82_comps : Forall comp_ok c82_name.
Proof. repeat constructor. all: cbn; unfold type_ok, u64; cbn; lia. Qed.
Lemma c82_sends k : In k [7; 8]%N -> can_send (fun _ => [1; 2; 3; 4]%N) c82_args c82_name k.
Proof.
  intros I. split; [discriminate|]. split; [repeat constructor; discriminate|].
  destruct I as [<-|[<-|[]]]; apply N.leb_le; vm_compute; reflexivity.
Qed.
Lemma c82_wire : go_wire (c82_ping c82_events) =
  [(0, ping_wire (fun _ => [1; 2; 3; 4]%N) c82_args c82_name 7); (10000000, ping_wire (fun _ => [1; 2; 3; 4]%N) c82_args c82_name 8)].
Proof. vm_compute. reflexivity. Qed.
Lemma c82_carries k : In k [7; 8]%N -> carries (ping_wire (fun _ => [1; 2; 3; 4]%N) c82_args c82_name k) (c82_interest k).
Proof. intros I. exact (carries_own _ _ _ k c82_comps (c82_sends k I)). Qed.

Example C82_run :
  plausible_run 0 c82_events /\ ping_accepts (fun _ => Some c82_name) c82_args c82_name /\
  go_end (c82_ping c82_events) = GExited 0 /\ vo_end (c82_server c82_asks) = VExited 0 /\
  go_stdout (c82_ping c82_events) = unlines
    [ str "PING /A"; str "content from /A: seq=7 time=1.5 ms"; str "content from /A: seq=8 time=2 ms"; []; str "--- /A ping statistics ---";
      str "2 packets transmitted, 2 received, 0 nacked, 0% lost, 0% nacked, time 3.5 ms"; str "rtt min/avg/max/mdev = 1.5/1.75/2/0.25 ms" ] /\
  vo_stdout (c82_server c82_asks) = unlines [ str "PING SERVER /A"; []; str "--- /A ping server statistics ---"; str "2 packets processed" ].
Proof.
  split; [split; [discriminate|]; split; [|reflexivity]; cbn; repeat split; discriminate|].
  split; [constructor; [eexists; split; reflexivity|discriminate|intros c [= <-]; discriminate|discriminate]|].
  repeat split; vm_compute; reflexivity.
Qed.
(** the hypotheses of [C82_counts]; the answer to the second ping may be lost *)
Example C82_no_forgery :
  only_answers c82_args c82_name c82_events (vo_sent (c82_server c82_asks)) /\
  only_pings (go_wire (c82_ping c82_events)) c82_asks.
Proof.
  split.
  - intros t k [H|[H|[H|[]]]]; injection H; intros; subst; try discriminate.
    + exists 1000000. eexists. split; [vm_compute; left; reflexivity|]. split; [discriminate|reflexivity].
    + exists 10500000. eexists. split; [vm_compute; right; left; reflexivity|]. split; [discriminate|reflexivity].
  - split.
    + rewrite c82_wire. intros t i [H|[H|[H|[]]]]; injection H; intros; subst; try discriminate.
      * exists 0. eexists. split; [now left|]. split; [discriminate|]. apply c82_carries. now left.
      * exists 10000000. eexists. split; [right; now left|]. split; [discriminate|]. apply c82_carries. right. now left.
    + repeat constructor; cbn; intuition discriminate.
Qed.
Example C82_lost :
  let r := c82_ping [(1500000, PhData 7); (10000000, PhTimer); (4010000000, PhTimeout 8)] in
  go_end r = GExited 1 /\ length (go_wire r) = 2%nat.
Proof. vm_compute. split; reflexivity. Qed.
(** the hypotheses of [C82_succeeds] *)
Example C82_network :
  serves (fun _ => Some c82_name) (fun _ => false) c82_served c82_name c82_asks /\
  (forall i d, for_server c82_name i -> reply c82_served i d -> In (i_name i) (asked c82_asks) -> short_enough (fun _ => ([27; 1; 0], repeat 0 32)%N) d) /\
  all_arrive (go_wire (c82_ping c82_events)) c82_asks /\
  all_return c82_args c82_name c82_events (go_wire (c82_ping c82_events)) (vo_sent (c82_server c82_asks)).
Proof.
  split; [|split; [|split]].
  - constructor; try (repeat split; discriminate); try (repeat split; try discriminate; reflexivity).
    + intros t x [H|[H|[H|[]]]]; injection H; intros; subst; eauto.
    + right. vm_compute. discriminate.
  - intros i [nm ct fb fr] _ (E1 & E2 & E3 & E4 & E5) I. cbn in E1, E2, E3, E4. subst nm fr fb. unfold short_enough. apply N.leb_le.
    assert (ct = str "aaa").
    { destruct ct as [|x [|y [|z [|z' ct]]]]; cbn [length] in E4; try lia.
      pose proof (E5 x ltac:(cbn; auto)) as X. pose proof (E5 y ltac:(cbn; auto)) as Y. pose proof (E5 z ltac:(cbn; auto)) as Z0.
      injection X as ->. injection Y as ->. injection Z0 as ->. reflexivity. }
    subst ct. destruct I as [<-|[<-|[]]]; vm_compute; reflexivity.
  - rewrite c82_wire. intros t w [H|[H|[]]]; injection H as <- <-.
    + exists 1000000, (c82_interest 7). split; [right; now left|]. split; [discriminate|]. apply c82_carries. now left.
    + exists 10500000, (c82_interest 8). split; [right; right; now left|]. split; [discriminate|]. apply c82_carries. right. now left.
  - rewrite c82_wire. intros t w i k t' d I C K En Id Ed. destruct I as [H|[H|[]]]; injection H as <- <-.
    + assert (Q : i_name i = ping_name c82_args c82_name 7) by exact (carries_name _ c82_args c82_name 7 i c82_comps (c82_sends 7 (or_introl eq_refl)) C).
      rewrite En in Q. apply ping_name_inj in Q; [|exact K|reflexivity]. subst k. exists 1500000. split; [left; reflexivity|]. split; reflexivity.
    + assert (Q : i_name i = ping_name c82_args c82_name 8) by exact (carries_name _ c82_args c82_name 8 i c82_comps (c82_sends 8 (or_intror (or_introl eq_refl))) C).
      rewrite En in Q. apply ping_name_inj in Q; [|exact K|reflexivity]. subst k. exists 12000000. split; [right; right; left; reflexivity|]. split; reflexivity.
Qed.
