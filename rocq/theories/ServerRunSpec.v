(** What ndnpingserver does according to its manual page and its usage text: the answers it sends
    and when, what it prints, and its exit status. *)
From Verif Require Import Base TlvModel PingModel PutchunksModel DumpModel ServeSpec DissectSpec ServerRunModel.
From Coq Require Import String List.
Import ListNotations.
Local Open Scope Z_scope.
Local Open Scope list_scope.

(** the options that are complained about; a prefix that is not a name is not among them *)
Inductive server_complaint (a : server_args) : text -> Prop :=
| Vc_fresh : va_fresh a < 0 -> server_complaint a (str "FreshnessPeriod cannot be negative")
| Vc_max : 0 <= va_fresh a -> va_max a < 0 -> server_complaint a (str "maximum number of pings to satisfy cannot be negative")
| Vc_size : 0 <= va_fresh a -> 0 <= va_max a -> va_size a < 0 -> server_complaint a (str "payload size cannot be negative").

Section Program.
Variable sign : packet -> list N * list N.
Variable parse_name : text -> option name.
Variable name_uri : name -> text.
Variable comp_uri : component -> text.
Variable usage version : text.
Variable stamp : Z -> text.
Variable start_error : Z -> bool.
Variable put_error : text.

Section Run.
Variable a : server_args.
Variable n : name.

(** Interests whose name begins with the prefix and the component "ping" *)
Definition for_server (i : interest) : Prop := exists rest, i_name i = n ++ Comp 8 (str "ping") :: rest.
(** the answer: the name of the Interest, the letter a as often as asked for *)
Definition reply (i : interest) (d : packet) : Prop :=
  k_name d = i_name i /\ k_fresh d = va_fresh a /\ k_fbi d = None /\
  Z.of_nat (length (k_content d)) = va_size a /\ (forall c, In c (k_content d) -> [c] = str "a").
Definition short_enough (d : packet) : Prop := (packet_size (octets (fst (sign d))) (octets (snd (sign d))) d <= 8800)%N.
(** what is printed when a ping arrives; [c] is the last component of its name *)
Definition reported (t : Z) (i : interest) (l : text) : Prop :=
  exists front c, i_name i = front ++ [c] /\
  l = if va_quiet a then []
      else if va_timestamp a then unlines [stamp t ++ str " - interest received: seq=" ++ comp_uri c]
      else unlines [str "interest received: seq=" ++ comp_uri c].
Definition farewell (k : N) : text :=
  unlines [ []; str "--- " ++ name_uri n ++ str " ping server statistics ---"; to_string k ++ str " packets processed" ].
Definition error_line (what : text) : text := unlines [str "ERROR: " ++ what].
Definition not_registered (reason : text) : text := error_line (str "Failed to register prefix: " ++ reason).

(** after it was told to stop: it only waits for the answer to the registration of its prefix, if
    that is [awaited]; [k] answers were sent *)
Inductive stopping (k : N) : bool -> list (Z * server_happens) -> text -> text -> server_end -> Prop :=
| Vs_done es : stopping k false es (farewell k) [] (VExited 0)
| Vs_waits : stopping k true [] [] [] VRunning
| Vs_ignored t i es o e x : stopping k true es o e x -> stopping k true ((t, VInterest i) :: es) o e x
| Vs_again t es o e x : stopping k true es o e x -> stopping k true ((t, VInterrupt) :: es) o e x
| Vs_registered t es : stopping k true ((t, VRegSuccess) :: es) (farewell k) [] (VExited 0)
| Vs_not_registered t reason es : stopping k true ((t, VRegFailure reason) :: es) [] (not_registered reason) (VExited 1)
| Vs_fails t what es : stopping k true ((t, VFails what) :: es) [] (error_line what) (VExited 1).

(** while it serves: [k] answers were sent so far *)
Inductive serving : N -> bool -> list (Z * server_happens) -> list (Z * packet) -> text -> text -> server_end -> Prop :=
| Vr_waits k w : serving k w [] [] [] [] VRunning
| Vr_foreign k w t i es s o e x : ~ for_server i -> serving k w es s o e x -> serving k w ((t, VInterest i) :: es) s o e x
| Vr_answers k w t i d l es s o e x : for_server i -> reply i d -> short_enough d -> reported t i l ->
    va_max a = 0 \/ Z.of_N k + 1 < va_max a ->
    serving (k + 1) w es s o e x -> serving k w ((t, VInterest i) :: es) ((t, d) :: s) (l ++ o) e x
| Vr_last k w t i d l es o e x : for_server i -> reply i d -> short_enough d -> reported t i l ->
    0 < va_max a -> Z.of_N k + 1 = va_max a ->
    stopping (k + 1) w es o e x -> serving k w ((t, VInterest i) :: es) [(t, d)] (l ++ o) e x
| Vr_too_long k w t i d l es : for_server i -> reply i d -> ~ short_enough d -> reported t i l ->
    serving k w ((t, VInterest i) :: es) [] l (error_line put_error) (VExited 1)
| Vr_interrupt k w t es o e x : stopping k w es o e x -> serving k w ((t, VInterrupt) :: es) [] o e x
| Vr_registered k w t es s o e x : serving k false es s o e x -> serving k w ((t, VRegSuccess) :: es) s o e x
| Vr_not_registered k t reason es : serving k true ((t, VRegFailure reason) :: es) [] [] (not_registered reason) (VExited 1)
| Vr_no_matter k t reason es s o e x : serving k false es s o e x -> serving k false ((t, VRegFailure reason) :: es) s o e x
| Vr_fails k w t what es : serving k w ((t, VFails what) :: es) [] [] (error_line what) (VExited 1).
End Run.

Definition with_usage (what : text) : text := unlines [str "ERROR: " ++ what; []] ++ usage.
Inductive server_behaves (es : list (Z * server_happens)) : text + server_args -> server_result -> Prop :=
| Vb_wrong what : server_behaves es (inl what) (ServerResult [] [] (with_usage what) (VExited 2))
| Vb_help a : va_help a = true -> server_behaves es (inr a) (ServerResult [] usage [] (VExited 0))
| Vb_version a : va_help a = false -> va_version a = true -> server_behaves es (inr a) (ServerResult [] version [] (VExited 0))
| Vb_no_prefix a : va_help a = false -> va_version a = false -> va_prefix a = [] ->
    server_behaves es (inr a) (ServerResult [] [] (with_usage (str "no name prefix specified")) (VExited 2))
| Vb_bad_name a : va_help a = false -> va_version a = false -> va_prefix a <> [] -> parse_name (va_prefix a) = None ->
    server_behaves es (inr a) (ServerResult [] [] [] VAborted)
| Vb_complaint a n m : va_help a = false -> va_version a = false -> va_prefix a <> [] -> parse_name (va_prefix a) = Some n ->
    server_complaint a m -> server_behaves es (inr a) (ServerResult [] [] (error_line m) (VExited 2))
| Vb_no_start a n : va_help a = false -> va_version a = false -> va_prefix a <> [] -> parse_name (va_prefix a) = Some n ->
    0 <= va_fresh a -> 0 <= va_max a -> 0 <= va_size a -> start_error (va_size a) = true ->
    server_behaves es (inr a) (ServerResult [] [] [] VAborted)
| Vb_run a n s o e x : va_help a = false -> va_version a = false -> va_prefix a <> [] -> parse_name (va_prefix a) = Some n ->
    0 <= va_fresh a -> 0 <= va_max a -> 0 <= va_size a -> start_error (va_size a) = false ->
    serving a n 0 true es s o e x ->
    server_behaves es (inr a) (ServerResult s (unlines [str "PING SERVER " ++ name_uri n] ++ o) e x).
End Program.
