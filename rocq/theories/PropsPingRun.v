(** ndnping as a program: C78. *)
From Verif Require Import Base TlvModel PingModel DumpModel DissectSpec PingRunModel PingRunSpec PingRunProofs3.
From Coq Require Import String List.
Import ListNotations.
Local Open Scope Z_scope.
Local Open Scope list_scope.

(** * C78 ndnping does what its manual page says *)
(** Whatever the command line and whatever happens: the packets sent and their times, both output
    streams and the exit status are as specified in PingRunSpec. *)
Theorem C78_program :
  forall (nonce : N -> list N) (parse_name : text -> option name) (uri : name -> text) (usage version : text) (stamp : Z -> text)
         (word64 : N) (face_error : bool) (send_error : N -> text) (cmd : text + ping_args) (t0 : Z) (es : list (Z * ping_happens)),
    (word64 < 2 ^ 64)%N -> (forall a k, cmd = inr a -> ga_start a = Some k -> (k < 2 ^ 64)%N) -> plausible_run t0 es ->
    ping_behaves nonce parse_name uri usage version stamp word64 face_error send_error t0 es cmd
      (ping_program nonce parse_name uri usage version stamp word64 face_error send_error cmd t0 es).
Proof. exact (fun n p u us v s w f e c t es Hw Hs Hp => ping_program_spec n p u us v s w f e Hw c t es Hp Hs). Qed.
Print Assumptions C78_program.

(** The pings are the Interests with successive numbers under the prefix; they are at least the
    interval apart, and not more than asked for. *)
Theorem C78_schedule :
  forall (nonce : N -> list N) (parse_name : text -> option name) (uri : name -> text) (usage version : text) (stamp : Z -> text)
         (word64 : N) (face_error : bool) (send_error : N -> text) (a : ping_args) (t0 : Z) (es : list (Z * ping_happens)),
    (word64 < 2 ^ 64)%N -> (forall k, ga_start a = Some k -> (k < 2 ^ 64)%N) -> plausible_run t0 es ->
    let r := ping_program nonce parse_name uri usage version stamp word64 face_error send_error (inr a) t0 es in
    let first := match ga_start a with Some k => k | None => word64 end in
    spaced (ga_interval a * 1000000) (map fst (go_wire r)) /\
    (forall c, ga_count a = Some c -> Z.of_nat (length (go_wire r)) <= Z.max c 0) /\
    (forall i t p, nth_error (go_wire r) i = Some (t, p) ->
       exists n, ping_accepts parse_name a n /\ p = ping_wire nonce a n ((first + N.of_nat i) mod 2 ^ 64)%N).
Proof.
  exact (fun n p u us v s w f e a t es Hw Hs Hp =>
    let B := ping_program_spec n p u us v s w f e Hw (inr a) t es Hp (start_of a Hs) in
    conj (sent_spaced _ _ _ _ _ _ _ _ _ _ _ _ _ B)
      (conj (sent_count _ _ _ _ _ _ _ _ _ _ _ _ _ B) (sent_packets _ _ _ _ _ _ _ _ _ _ _ _ _ B))).
Qed.
Print Assumptions C78_schedule.

(** The exit status 0 means: pings were sent, all of them were answered by Data, and there were as
    many as asked for unless the user interrupted. *)
Theorem C78_success :
  forall (nonce : N -> list N) (parse_name : text -> option name) (uri : name -> text) (usage version : text) (stamp : Z -> text)
         (word64 : N) (face_error : bool) (send_error : N -> text) (a : ping_args) (t0 : Z) (es : list (Z * ping_happens)),
    (word64 < 2 ^ 64)%N -> (forall k, ga_start a = Some k -> (k < 2 ^ 64)%N) -> plausible_run t0 es ->
    let r := ping_program nonce parse_name uri usage version stamp word64 face_error send_error (inr a) t0 es in
    let first := match ga_start a with Some k => k | None => word64 end in
    ga_version a = false -> go_end r = GExited 0 ->
    go_wire r <> [] /\
    (forall i, (i < length (go_wire r))%nat -> exists t, In (t, PhData ((first + N.of_nat i) mod 2 ^ 64)%N) es) /\
    (ga_count a = Some (Z.of_nat (length (go_wire r))) \/ exists t, In (t, PhInterrupt) es).
Proof.
  exact (fun n p u us v s w f e a t es Hw Hs Hp =>
    success_means _ _ _ _ _ _ _ _ _ _ _ _ _
      (ping_program_spec n p u us v s w f e Hw (inr a) t es Hp (start_of a Hs))).
Qed.
Print Assumptions C78_success.

(** A run with -t and three pings: one is answered after 1.5 ms, one by a Nack, one times out; the
    user asks for a summary in between.  Two events come too early, one is a stray packet. *)
Definition c78_args : ping_args := PingArgs false false (Some (str "/A")) 10 4000 (Some 3) (Some 7%N) (Some (str "x1")) false true.
Definition c78_events : list (Z * ping_happens) :=
  [ (1500000, PhData 7); (1600000, PhData 7); (9000000, PhTimer); (10000000, PhTimer); (12000000, PhNack 8 150); (12000001, PhQuit);
    (30000000, PhTimer); (31000000, PhTimer); (4029999999, PhTimeout 9); (4030000000, PhTimeout 9) ].
Definition c78_run (es : list (Z * ping_happens)) : ping_result :=
  ping_program (fun _ => [1; 2; 3; 4]%N) (fun _ => Some [Comp TGeneric [65%N]]) (fun _ => str "/A") [] [] (fun _ => str "NOW") 0 false (fun _ => [])
    (inr c78_args) 0 es.
Example C78_run :
  plausible_run 0 c78_events /\
  c78_run c78_events =
  PingResult
    [ (0, [5; 26; 7; 16; 8; 1; 65; 8; 4; 112; 105; 110; 103; 8; 2; 120; 49; 8; 1; 55; 18; 0; 10; 4; 1; 2; 3; 4]%N);
      (10000000, [5; 26; 7; 16; 8; 1; 65; 8; 4; 112; 105; 110; 103; 8; 2; 120; 49; 8; 1; 56; 18; 0; 10; 4; 1; 2; 3; 4]%N);
      (30000000, [5; 26; 7; 16; 8; 1; 65; 8; 4; 112; 105; 110; 103; 8; 2; 120; 49; 8; 1; 57; 18; 0; 10; 4; 1; 2; 3; 4]%N) ]
    (unlines
       [ str "PING /A";
         str "NOW - content from /A: seq=7 time=1.5 ms";
         str "NOW - nack from /A: seq=8 time=2 ms reason=NoRoute";
         str "1/2 packets, 0% lost, 50% nacked, min/avg/max/mdev = 1.5/1.5/1.5/0 ms";
         str "NOW - timeout from /A: seq=9";
         [];
         str "--- /A ping statistics ---";
         str "3 packets transmitted, 1 received, 1 nacked, 33.3333% lost, 33.3333% nacked, time 1.5 ms";
         str "rtt min/avg/max/mdev = 1.5/1.5/1.5/0 ms" ])
    [] (GExited 1).
Proof.
  split; [|vm_compute; reflexivity]. split; [discriminate|]. split; [|reflexivity]. cbn. repeat split; discriminate.
Qed.
(** Interrupted after the first ping was answered: the program succeeds. *)
Example C78_interrupted :
  let r := c78_run [(1500000, PhData 7); (2000000, PhInterrupt)] in go_end r = GExited 0 /\ length (go_wire r) = 1%nat.
Proof. vm_compute. split; reflexivity. Qed.
