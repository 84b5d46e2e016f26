(** Properties of ndnpeek and ndnpoke as programs: C73, C74. *)
From Verif Require Import Base TlvModel PingModel PeekModel PeekPokeModel PeekWireModel DumpModel DissectSpec PeekRunModel PeekRunSpec PeekRunProofs.
From Coq Require Import String List ZArith.
Import ListNotations.
Local Open Scope Z_scope.
Local Open Scope list_scope.

(** * C73 ndnpeek as a program *)

(** What ndnpeek writes to the standard output and the standard error, and its exit status,
    whatever happens, if the clock does not go back. *)
Theorem C73_program :
  forall (sha256 : list N -> list N) (nonce : list N) (interest_text : full_interest -> text) (wire_name : list N -> text)
         (usage version : text) (base64 : text -> text + list N) (open_file : text -> text + (text + list N))
         (face_error : option text) (create_error send_error : text)
         (t0 : Z) (es : list (Z * peek_happens)) (cmd : text + peek_args) (r : run_result),
    Forall (fun e => t0 <= fst e) es ->
    (peek_program sha256 nonce interest_text wire_name usage version base64 open_file face_error create_error send_error cmd t0 es = r <->
     peek_behaves sha256 nonce interest_text wire_name usage version base64 open_file face_error create_error send_error t0 es cmd r).
Proof.
  intros s n it wn u v b o fe ce se t0 es cmd r B.
  split; [exact (peek_prog_behaves s n it wn u v b o fe ce se t0 es cmd r B)|exact (peek_behaves_prog s n it wn u v b o fe ce se t0 es cmd r)].
Qed.
Print Assumptions C73_program.

(** The option -v changes neither the standard output nor the exit status ... *)
Theorem C73_verbose :
  forall (sha256 : list N -> list N) (nonce : list N) (interest_text : full_interest -> text) (wire_name : list N -> text)
         (usage version : text) (base64 : text -> text + list N) (open_file : text -> text + (text + list N))
         (face_error : option text) (create_error send_error : text)
         (t0 : Z) (es : list (Z * peek_happens)) (help ver payload prefix fresh : bool) (n : option name) (hints : list name)
         (timeout : option Z) (lifetime : Z) (hops : option Z) (params file : option text),
    let run verbose := peek_program sha256 nonce interest_text wire_name usage version base64 open_file face_error create_error send_error
      (inr (PeekArgs help ver payload verbose prefix fresh n hints timeout lifetime hops params file)) t0 es in
    rr_stdout (run true) = rr_stdout (run false) /\ rr_status (run true) = rr_status (run false).
Proof.
  intros s nn it wn u v b o fe ce se t0 es h ve p pr f n hs t l ho pa fi run.
  exact (peek_verbose s nn it wn u v b o fe ce se (PeekArgs h ve p true pr f n hs t l ho pa fi) t0 es).
Qed.
Print Assumptions C73_verbose.

(** ... and without it, something is written to the standard error only in case of an error,
    which the exit status tells. *)
Theorem C73_silent :
  forall (sha256 : list N -> list N) (nonce : list N) (interest_text : full_interest -> text) (wire_name : list N -> text)
         (usage version : text) (base64 : text -> text + list N) (open_file : text -> text + (text + list N))
         (face_error : option text) (create_error send_error : text)
         (a : peek_args) (t0 : Z) (es : list (Z * peek_happens)) (r : run_result),
    Forall (fun e => t0 <= fst e) es -> ka_verbose a = false ->
    peek_program sha256 nonce interest_text wire_name usage version base64 open_file face_error create_error send_error (inr a) t0 es = r ->
    rr_stderr r <> [] -> rr_status r = Some 1 \/ rr_status r = Some 2.
Proof. exact peek_silent. Qed.
Print Assumptions C73_silent.

Section Case.
Let peek v p w := peek_program (fun _ => repeat 7%N 32) [1; 2; 3; 4]%N (fun _ => str "/A") (fun _ => str "/A/1") [] [] (fun _ => inl (str "bad"))
  (fun _ => inl (str "No such file")) None (str "create") (str "send")
  (inr (PeekArgs false false p v true false (Some [Comp 8 [65%N]]) [] w 4000 (Some 255) None None)).
Let wire : list N := tlv 6 (tlv 7 (tlv 8 [65] ++ tlv 8 [49]) ++ tlv 21 [104; 105] ++ tlv 22 [27; 1; 0] ++ tlv 23 [])%N.
Example C73_case :
  peek true true (Some 10) 5 [(2500004, KEvent (PeData wire)); (3000000, KEvent PeExpired)] =
    RunResult (str "hi") (unlines [str "INTEREST: /A"; str "DATA: /A/1"; str "RTT: 2 ms"]) (Some 0) /\
  peek false true None 5 [(6, KEvent PeTimer); (7, KEvent (PeNack (tlv 800 (tlv 801 [150]%N))))] =
    RunResult (unlines [str "NoRoute"]) [] (Some 4) /\
  peek true false (Some 10) 5 [(6, KEvent PeTimer)] = RunResult [] (unlines [str "INTEREST: /A"; str "TIMEOUT"]) (Some 3) /\
  peek false false None 5 [] = RunResult [] [] None /\
  peek false false None 5 [(6, KFails (str "gone"))] = RunResult [] (unlines [str "ERROR: gone"]) (Some 1).
Proof. vm_compute. auto 6. Qed.
End Case.

(** * C74 ndnpoke as a program *)

(** Full statement: ndnpoke publishes one Data packet with the given name and the standard
    input as content, at once or in answer to an Interest, ends when it is sent or the timeout
    ends, and tells by messages and exit status what has happened.  Proved: which packets are
    sent, what is printed and the exit status, whatever happens.  Missing: the timeout does not
    limit the time until the prefix is registered. *)
Theorem C74_program_partial :
  forall (digest : packet -> component) (sign : packet -> list N * list N) (interest_text : interest -> text) (data_text : packet -> text)
         (usage version : text) (parse_name : text -> text + name) (signing_error : text -> option text)
         (start_error : option text) (put_error : text) (put_later : bool)
         (input : list N) (es : list poke_happens) (cmd : text + poke_args) (r : poke_outcome),
    poke_program digest sign interest_text data_text usage version parse_name signing_error start_error put_error put_later cmd input es = r <->
    poke_behaves digest sign interest_text data_text usage version parse_name signing_error start_error put_error put_later input es cmd r.
Proof.
  intros d s it dt u v pn se st pe pl input es cmd r.
  split; [exact (poke_prog_behaves d s it dt u v pn se st pe pl input es cmd r)|exact (poke_behaves_prog d s it dt u v pn se st pe pl input es cmd r)].
Qed.
Print Assumptions C74_program_partial.

Section Case2.
Let poke v u w := poke_program (fun _ => Comp 1 []) (fun _ => ([27; 1; 0], [])%N) (fun i => str "interest") (fun _ => str "packet" ++ [10%N]) [] []
  (fun t => inr [Comp 8 t]) (fun _ => None) None (str "too long") false
  (inr (PokeArgs false false u v false (Some (str "A")) 1000 [] w)) (str "hi").
Let sent : list packet := [Packet [Comp 8 (str "A")] (str "hi") None 1000].
(** the timer of -w has not been started before the registration *)
Theorem C74_timeout_refuted :
  forall n, poke true false (Some 100) (repeat OTimer n) = PokeOutcome [] (RunResult [] [] None).
Proof. induction n as [|n IH]; [vm_compute; reflexivity|exact IH]. Qed.
Print Assumptions C74_timeout_refuted.
(** Status 3 does not mean that no Interest was received, unlike the manual page says. *)
Theorem C74_status_3_refuted :
  poke true false (Some 100) [ORegSuccess; OInterest (Interest [Comp 8 (str "A"); Comp 8 (str "1")] true false); OTimer] =
  PokeOutcome [] (RunResult [] (unlines [str "Prefix registration successful"; str "INTEREST: interest"; str "Interest cannot be satisfied"; str "TIMEOUT"]) (Some 3)).
Proof. vm_compute. reflexivity. Qed.
Print Assumptions C74_status_3_refuted.
Example C74_case :
  poke true false (Some 100) [OTimer; ORegSuccess; OInterest (Interest [Comp 8 (str "B")] true false); OInterest (Interest [Comp 8 (str "A")] false true); OTimer] =
    PokeOutcome sent (RunResult [] (unlines [str "Prefix registration successful"; str "INTEREST: interest"; str "DATA: packet"]) (Some 0)) /\
  poke false false None [ORegFailure (str "no reply")] =
    PokeOutcome [] (RunResult [] (unlines [str "Prefix registration failure (no reply)"]) (Some 5)) /\
  poke false true None [] = PokeOutcome sent (RunResult [] [] (Some 0)) /\
  poke false true (Some 5) [] =
    PokeOutcome [] (RunResult [] (unlines [str "ERROR: conflicting '--unsolicited' and '--timeout' options specified"]) (Some 2)).
Proof. vm_compute. auto 6. Qed.
End Case2.
