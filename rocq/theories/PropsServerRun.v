(** ndnpingserver as a program: C79. *)
From Verif Require Import Base TlvModel PingModel PutchunksModel DumpModel DissectSpec ServeSpec ServerRunModel ServerRunSpec ServerRunProofs.
From Coq Require Import String List.
Import ListNotations.
Local Open Scope Z_scope.
Local Open Scope list_scope.

(** * C79 ndnpingserver does what its manual page says *)
(** Whatever the command line and whatever happens: the answers sent and their times, both output
    streams and the exit status are as specified in ServerRunSpec. *)
Theorem C79_program :
  forall (sign : packet -> list N * list N) (parse_name : text -> option name) (name_uri : name -> text) (comp_uri : component -> text)
         (usage version : text) (stamp : Z -> text) (start_error : Z -> bool) (put_error : text)
         (cmd : text + server_args) (es : list (Z * server_happens)),
    server_behaves sign parse_name name_uri comp_uri usage version stamp start_error put_error es cmd
      (server_program sign parse_name name_uri comp_uri usage version stamp start_error put_error cmd es).
Proof. exact server_program_spec. Qed.
Print Assumptions C79_program.

(** Every packet that it sends answers an Interest for the server that arrived at that moment; it
    has its name, the content and the freshness period asked for.  There are not more of them than
    the limit. *)
Theorem C79_answers :
  forall (sign : packet -> list N * list N) (parse_name : text -> option name) (name_uri : name -> text) (comp_uri : component -> text)
         (usage version : text) (stamp : Z -> text) (start_error : Z -> bool) (put_error : text)
         (a : server_args) (es : list (Z * server_happens)),
    let r := server_program sign parse_name name_uri comp_uri usage version stamp start_error put_error (inr a) es in
    (forall t d, In (t, d) (vo_sent r) -> exists n i, parse_name (va_prefix a) = Some n /\
       In (t, VInterest i) es /\ for_server n i /\ reply a i d /\ short_enough sign d) /\
    (0 < va_max a -> Z.of_nat (length (vo_sent r)) <= va_max a).
Proof.
  exact (fun sg p nu cu us v s se pe a es =>
    let B := server_program_spec sg p nu cu us v s se pe (inr a) es in
    conj (behaves_answers _ _ _ _ _ _ _ _ _ _ _ _ B) (behaves_limit _ _ _ _ _ _ _ _ _ _ _ _ B)).
Qed.
Print Assumptions C79_answers.

(** The exit status 0 means: it was interrupted or has given as many answers as asked for, and the
    number at the end of its output is the number of its answers. *)
Theorem C79_success :
  forall (sign : packet -> list N * list N) (parse_name : text -> option name) (name_uri : name -> text) (comp_uri : component -> text)
         (usage version : text) (stamp : Z -> text) (start_error : Z -> bool) (put_error : text)
         (a : server_args) (es : list (Z * server_happens)),
    let r := server_program sign parse_name name_uri comp_uri usage version stamp start_error put_error (inr a) es in
    va_help a = false -> va_version a = false -> vo_end r = VExited 0 ->
    vo_stderr r = [] /\
    (exists front n, parse_name (va_prefix a) = Some n /\
       vo_stdout r = front ++ unlines [ []; str "--- " ++ name_uri n ++ str " ping server statistics ---";
                                        to_string (N.of_nat (length (vo_sent r))) ++ str " packets processed" ]) /\
    ((exists t, In (t, VInterrupt) es) \/ (0 < va_max a /\ Z.of_nat (length (vo_sent r)) = va_max a)).
Proof.
  exact (fun sg p nu cu us v s se pe a es =>
    behaves_success _ _ _ _ _ _ _ _ _ _ _ _ (server_program_spec sg p nu cu us v s se pe (inr a) es)).
Qed.
Print Assumptions C79_success.

(** A run with -t, -s 3 and -p 2: a ping, a foreign Interest, the registration, a second ping, and
    an Interest that comes too late. *)
Definition c79_args : server_args := ServerArgs false false (str "/A") 1000 2 3 true false.
Definition c79_ping (c : N) : interest := Interest [Comp 8 (str "A"); Comp 8 (str "ping"); Comp 8 [c]] false true.
Definition c79_run (a : server_args) (es : list (Z * server_happens)) : server_result :=
  server_program (fun _ => ([27; 1; 0], repeat 0 32)%N) (fun _ => Some [Comp 8 (str "A")]) (fun _ => str "/A") c_value (str "USAGE") []
    (fun _ => str "NOW") (fun _ => false) (str "too long") (inr a) es.
Example C79_run :
  c79_run c79_args [(5, VInterest (c79_ping 55)); (6, VInterest (Interest [Comp 8 (str "A")] false true)); (7, VRegSuccess);
                    (8, VInterest (c79_ping 56)); (9, VInterest (c79_ping 57))] =
  ServerResult [(5, Packet (i_name (c79_ping 55)) (str "aaa") None 1000); (8, Packet (i_name (c79_ping 56)) (str "aaa") None 1000)]
    (unlines [ str "PING SERVER /A"; str "NOW - interest received: seq=7"; str "NOW - interest received: seq=8";
               []; str "--- /A ping server statistics ---"; str "2 packets processed" ])
    [] (VExited 0).
Proof. vm_compute. reflexivity. Qed.
(** The registration fails; a payload that does not fit into a packet; a negative limit. *)
Example C79_failures :
  c79_run c79_args [(5, VRegFailure (str "no route"))] =
    ServerResult [] (unlines [str "PING SERVER /A"]) (unlines [str "ERROR: Failed to register prefix: no route"]) (VExited 1) /\
  c79_run (ServerArgs false false (str "/A") 1000 0 9000 false true) [(4, VRegSuccess); (5, VInterest (c79_ping 55))] =
    ServerResult [] (unlines [str "PING SERVER /A"]) (unlines [str "ERROR: too long"]) (VExited 1) /\
  c79_run (ServerArgs false false (str "/A") 1000 (-1) 0 false true) [] =
    ServerResult [] [] (unlines [str "ERROR: maximum number of pings to satisfy cannot be negative"]) (VExited 2).
Proof. vm_compute. repeat split; reflexivity. Qed.
