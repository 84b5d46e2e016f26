(** What ndnping does as a program.  Written from the manual page; the conditions are about the
    notes that an observer takes during the run. *)
From Verif Require Import Base TlvModel PingModel PingSpec PingStatsSpec PeekModel PeekPokeModel PeekWireModel DumpModel DissectSpec
  PingTextSpec PingRunModel.
From Coq Require Import String List.
Import ListNotations.
Local Open Scope Z_scope.
Local Open Scope list_scope.

(** ** Notes: what happened at which time, in order *)
Inductive note :=
| NSent (k : N)                                          (* an Interest was sent *)
| NData (k : N) | NNack (k code : N) | NTimeout (k : N)  (* the outcome of a ping *)
| NInterrupt                                             (* the user wants to stop *)
| NSummary.                                              (* the user has asked for a summary *)
Definition notes := list (Z * note).

Definition sent (h : notes) : list (Z * N) := flat_map (fun e => match snd e with NSent k => [(fst e, k)] | _ => [] end) h.
Definition settled (h : notes) (k : N) : Prop :=
  exists t, In (t, NData k) h \/ (exists c, In (t, NNack k c) h) \/ In (t, NTimeout k) h.
(** the ping was sent at that time, and nothing has come of it so far *)
Definition waiting (h : notes) (k : N) (t : Z) : Prop := In (t, NSent k) h /\ ~ settled h k.
Definition all_settled (h : notes) : Prop := forall t k, In (t, NSent k) h -> settled h k.
Definition interrupted (h : notes) : Prop := exists t, In (t, NInterrupt) h.

Section Run.
Variable nonce : N -> list N.
Variable stamp : Z -> text.
Variable send_error : N -> text.
Variable a : ping_args.
Variable prefix : name.
Variable u : text.              (* the prefix as text *)
Variable first : N.             (* the first sequence number *)

(** as many pings as asked for have been sent *)
Definition complete (h : notes) : Prop := exists c, ga_count a = Some c /\ Z.of_nat (length (sent h)) = c.
Definition over (h : notes) : Prop := (interrupted h \/ complete h) /\ all_settled h.

(** the i-th sequence number, from 0 *)
Definition number (i : nat) : N := ((first + N.of_nat i) mod 2 ^ 64)%N.

(** *** The packets *)
Definition ping_name (k : N) : name :=
  prefix ++ [Comp TGeneric (str "ping")] ++
  match ga_identifier a with Some i => [Comp TGeneric i] | None => [] end ++ [Comp TGeneric (to_string k)].
Definition ping_wire (k : N) : list N :=
  interest_wire (nonce k) (FullInterest (Interest (ping_name k) false (negb (ga_cache a))) [] (ga_timeout a) None None).
Definition can_send (k : N) : Prop :=
  0 <= ga_timeout a /\ Forall (fun c => c_type c <> TParametersDigest) prefix /\ (N.of_nat (length (ping_wire k)) <= 8800)%N.

(** *** What follows when something happens at the time [t] *)
Definition ms (z : Z) : Z := z * 1000000.
Inductive next (h : notes) (t : Z) : ping_happens -> list note -> Prop :=
| Nx_data k t1 : waiting h k t1 -> next h t (PhData k) [NData k]
| Nx_nack k c t1 : waiting h k t1 -> next h t (PhNack k c) [NNack k c]
| Nx_timeout k t1 : waiting h k t1 -> t1 + ms (ga_timeout a) <= t -> next h t (PhTimeout k) [NTimeout k]
(* neither stray packets nor timeouts that are too early *)
| Nx_stray x k : In x [PhData k; PhTimeout k] \/ (exists c, x = PhNack k c) -> (forall t1, ~ waiting h k t1) -> next h t x []
| Nx_early k t1 : waiting h k t1 -> t < t1 + ms (ga_timeout a) -> next h t (PhTimeout k) []
(* the next ping, after the interval *)
| Nx_ping : ~ interrupted h -> ~ complete h -> (forall t1 k1, In (t1, NSent k1) h -> t1 + ms (ga_interval a) <= t) ->
    can_send (number (length (sent h))) -> next h t PhTimer [NSent (number (length (sent h)))]
| Nx_no_ping : interrupted h \/ complete h \/ (exists t1 k1, In (t1, NSent k1) h /\ t < t1 + ms (ga_interval a)) -> next h t PhTimer []
(* signals *)
| Nx_interrupt : ~ interrupted h -> next h t PhInterrupt [NInterrupt]
| Nx_interrupt_again : interrupted h -> next h t PhInterrupt []
| Nx_quit : ~ interrupted h -> next h t PhQuit [NSummary]
| Nx_quit_ignored : interrupted h -> next h t PhQuit [].

(** the notes of a run in which nothing goes wrong *)
Inductive pinging (t0 : Z) : list (Z * ping_happens) -> notes -> Prop :=
| Pg_start : can_send (number 0) -> pinging t0 [] [(t0, NSent (number 0))]
| Pg_next es h t x new : pinging t0 es h -> ~ over h -> next h t x new ->
    pinging t0 (es ++ [(t, x)]) (h ++ map (fun n => (t, n)) new)
| Pg_over es h e : pinging t0 es h -> over h -> pinging t0 (es ++ [e]) h.

(** *** What is printed *)
(** when that ping was sent *)
Definition sent_at (h : notes) (k : N) : Z := match find (fun e => N.eqb k (snd e)) (sent h) with Some e => fst e | None => 0 end.
(** the outcomes, with the times since the sending *)
Definition measured (h : notes) : list gobs :=
  flat_map (fun e => match snd e with
                     | NData k => [GData k (Z.to_N (fst e - sent_at h k))]
                     | NNack k _ => [GNack k (Z.to_N (fst e - sent_at h k))]
                     | NTimeout k => [GTimeout k]
                     | _ => []
                     end) h.
Definition stamped (t : Z) (l : text) : text := (if ga_timestamp a then stamp t ++ str " - " else []) ++ l.
Inductive prints : notes -> text -> Prop :=
| Pr_none : prints [] []
| Pr_sent h out t k : prints h out -> prints (h ++ [(t, NSent k)]) out
| Pr_interrupt h out t : prints h out -> prints (h ++ [(t, NInterrupt)]) out
| Pr_data h out t k t1 l : prints h out -> In (t1, NSent k) h -> t1 <= t -> line u reason_text (GData k (Z.to_N (t - t1))) l ->
    prints (h ++ [(t, NData k)]) (out ++ stamped t l)
| Pr_nack h out t k c t1 l : prints h out -> In (t1, NSent k) h -> t1 <= t -> line u (fun _ => reason_text c) (GNack k (Z.to_N (t - t1))) l ->
    prints (h ++ [(t, NNack k c)]) (out ++ stamped t l)
| Pr_timeout h out t k l : prints h out -> line u reason_text (GTimeout k) l -> prints (h ++ [(t, NTimeout k)]) (out ++ stamped t l)
| Pr_summary h out t l : prints h out -> summary (measured h) l -> prints (h ++ [(t, NSummary)]) (out ++ l).

Definition title : text := unlines [str "PING " ++ u].
Definition packets (h : notes) : list (Z * list N) := map (fun e => (fst e, ping_wire (snd e))) (sent h).
Definition all_data (h : notes) : Prop := forall t k, In (t, NSent k) h -> exists t', In (t', NData k) h.

Inductive ping_run (t0 : Z) (es : list (Z * ping_happens)) : ping_result -> Prop :=
| Pn_running h out : pinging t0 es h -> ~ over h -> prints h out -> ping_run t0 es (PingResult (packets h) (title ++ out) [] GRunning)
| Pn_success h out rep : pinging t0 es h -> over h -> prints h out -> report u (measured h) rep -> all_data h ->
    ping_run t0 es (PingResult (packets h) (title ++ out ++ rep) [] (GExited 0))
| Pn_losses h out rep : pinging t0 es h -> over h -> prints h out -> report u (measured h) rep -> ~ all_data h ->
    ping_run t0 es (PingResult (packets h) (title ++ out ++ rep) [] (GExited 1))
(* an exception: no statistics *)
| Pn_not_sent : ~ can_send (number 0) ->
    ping_run t0 es (PingResult [] title (unlines [str "ERROR: " ++ send_error (number 0)]) (GExited 2))
| Pn_broken es1 es2 t x what h out : es = es1 ++ (t, x) :: es2 -> pinging t0 es1 h -> ~ over h -> prints h out ->
    (x = PhFails what \/
     (* the next ping is due, but cannot be sent *)
     x = PhTimer /\ what = send_error (number (length (sent h))) /\ ~ can_send (number (length (sent h))) /\
     ~ interrupted h /\ ~ complete h /\ (forall t1 k1, In (t1, NSent k1) h -> t1 + ms (ga_interval a) <= t)) ->
    ping_run t0 es (PingResult (packets h) (title ++ out) (unlines [str "ERROR: " ++ what]) (GExited 2)).
End Run.

(** ** The whole program *)
Definition letter_or_digit (c : N) : Prop := (48 <= c <= 57 \/ 65 <= c <= 90 \/ 97 <= c <= 122)%N.
(** complaints about the options *)
Inductive ping_complaint (parse_name : text -> option name) (a : ping_args) : text -> Prop :=
| Gc_prefix : ga_prefix a = None -> ping_complaint parse_name a (str "No prefix specified")
| Gc_interval p n : ga_prefix a = Some p -> parse_name p = Some n -> ga_interval a < 1 ->
    ping_complaint parse_name a (str "Specified ping interval is less than the minimum (1 ms)")
| Gc_count p n c : ga_prefix a = Some p -> parse_name p = Some n -> 1 <= ga_interval a -> ga_count a = Some c -> c <= 0 ->
    ping_complaint parse_name a (str "Number of ping must be positive")
| Gc_identifier p n i : ga_prefix a = Some p -> parse_name p = Some n -> 1 <= ga_interval a -> (forall c, ga_count a = Some c -> 1 <= c) ->
    ga_identifier a = Some i -> i = [] \/ ~ Forall letter_or_digit i ->
    ping_complaint parse_name a (str "Unacceptable client identifier").
Record ping_accepts (parse_name : text -> option name) (a : ping_args) (n : name) : Prop := PingAccepts {
  gk_prefix : exists p, ga_prefix a = Some p /\ parse_name p = Some n;
  gk_interval : 1 <= ga_interval a;
  gk_count : forall c, ga_count a = Some c -> 1 <= c;
  gk_identifier : forall i, ga_identifier a = Some i -> i <> [] /\ Forall letter_or_digit i
}.

Section Program.
Variable nonce : N -> list N.
Variable parse_name : text -> option name.
Variable uri : name -> text.
Variable usage version : text.
Variable stamp : Z -> text.
Variable word64 : N.
Variable face_error : bool.
Variable send_error : N -> text.

(** a number of milliseconds that a clock of 64 bits can represent *)
Definition clock_fits (z : Z) : Prop := ms z < 2 ^ 63.
Inductive ping_behaves (t0 : Z) (es : list (Z * ping_happens)) : text + ping_args -> ping_result -> Prop :=
| Gb_wrong e : ping_behaves t0 es (inl e) (PingResult [] usage (unlines [str "ERROR: " ++ e]) (GExited 2))
| Gb_help a : ga_help a = true -> ping_behaves t0 es (inr a) (PingResult [] usage [] (GExited 2))
| Gb_version a : ga_help a = false -> ga_version a = true -> ping_behaves t0 es (inr a) (PingResult [] version [] (GExited 0))
| Gb_complaint a m : ga_help a = false -> ga_version a = false -> ping_complaint parse_name a m ->
    ping_behaves t0 es (inr a) (PingResult [] usage (unlines [str "ERROR: " ++ m]) (GExited 2))
| Gb_bad_name a p : ga_help a = false -> ga_version a = false -> ga_prefix a = Some p -> parse_name p = None ->
    ping_behaves t0 es (inr a) (PingResult [] [] [] GAborted)
| Gb_no_face a n : ga_help a = false -> ga_version a = false -> ping_accepts parse_name a n -> face_error = true ->
    ping_behaves t0 es (inr a) (PingResult [] [] [] GAborted)
| Gb_too_long a n : ga_help a = false -> ga_version a = false -> ping_accepts parse_name a n -> face_error = false ->
    ~ (clock_fits (ga_interval a) /\ clock_fits (ga_timeout a)) -> ping_behaves t0 es (inr a) (PingResult [] [] [] GUndefined)
| Gb_run a n r : ga_help a = false -> ga_version a = false -> ping_accepts parse_name a n -> face_error = false ->
    clock_fits (ga_interval a) -> clock_fits (ga_timeout a) ->
    ping_run nonce stamp send_error a n (uri n) (match ga_start a with Some k => k | None => word64 end) t0 es r ->
    ping_behaves t0 es (inr a) r.
End Program.

(** the clock does not go back, and its values and the number of events are plausible *)
Fixpoint clocked (t0 : Z) (es : list (Z * ping_happens)) : Prop :=
  match es with [] => t0 < 2 ^ 63 | e :: es' => t0 <= fst e /\ clocked (fst e) es' end.
Definition plausible_run (t0 : Z) (es : list (Z * ping_happens)) : Prop :=
  0 <= t0 /\ clocked t0 es /\ Z.of_nat (length es) < 1000000000.

(** successive times are at least [d] apart *)
Fixpoint spaced (d : Z) (l : list Z) : Prop :=
  match l with t1 :: ((t2 :: _) as l') => t1 + d <= t2 /\ spaced d l' | _ => True end.
