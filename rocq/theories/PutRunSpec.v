(** What ndnputchunks does according to its manual page, its usage text and the NDN conventions
    for versions, segments and metadata: what it publishes and sends, what it prints, and its exit
    status. *)
From Verif Require Import Base TlvModel PingModel PutchunksModel PutchunksSpec DumpModel ServeModel ServeSpec DissectSpec PutRunModel.
From Coq Require Import String List.
Import ListNotations.
Local Open Scope Z_scope.
Local Open Scope list_scope.

(** the values of option -N *)
Inductive chosen_convention (default_cv : convention) : text -> convention -> Prop :=
| Cc_marker s : s = str "marker" \/ s = str "m" \/ s = str "1" -> chosen_convention default_cv s CvMarker
| Cc_typed s : s = str "typed" \/ s = str "t" \/ s = str "2" -> chosen_convention default_cv s CvTyped
| Cc_default : chosen_convention default_cv [] default_cv.

Section Program.
Variable digest : packet -> component.
Variable sign : packet -> list N * list N.
Variable name_uri : name -> text.
Variable comp_uri : component -> text.
Variable interest_text : interest -> text.
Variable data_text : packet -> text.
Variable usage version : text.
Variable default_cv : convention.
Variable parse_signing : text -> signing.
Variable parse_name : text -> name + text.
Variable start_error : option text.
Variable load_error : name -> list N -> option text.
Variable put_error : text.

(** the name without and with version: the version is in the name given, or the time is used *)
Inductive versioned (cv : convention) (now : N) (given : name) : name -> component -> Prop :=
| Vn_given plain v : given = plain ++ [v] -> version_of v <> None -> versioned cv now given plain v
| Vn_clock : (forall plain v, given = plain ++ [v] -> version_of v = None) -> versioned cv now given given (version_comp cv now).

Section Publication.
Variable a : put_args.
Variable cv : convention.
Variable plain : name.
Variable v : component.
Variable chunks : list (list N).

(** chunk number [k] as a packet *)
Inductive segment (k : N) : packet -> Prop :=
  Segment c : nth_error chunks (N.to_nat k) = Some c ->
    segment k (Packet (plain ++ [v; segment_comp cv k]) c (Some (segment_comp cv (N.of_nat (length chunks) - 1))) (ua_fresh a)).

(** requests for one segment of this version; for the content in general; for metadata *)
Definition for_segment (i : interest) (k : N) : Prop := exists c, i_name i = plain ++ [v; c] /\ segment_of c = Some k.
Definition for_content (i : interest) : Prop :=
  (i_name i = plain \/ exists rest, i_name i = plain ++ v :: rest) /\ forall k, ~ for_segment i k.
Definition for_metadata (i : interest) : Prop := exists rest, i_name i = plain ++ Comp 32 (str "metadata") :: rest.

(** the reply to an Interest at a time, and what is printed about it with option -v *)
Inductive replies (now : N) (i : interest) : reply -> list text -> Prop :=
| Rs_segment k d : for_segment i k -> segment k d -> replies now i (RpData d) [str "Interest: " ++ interest_text i; str "Data: " ++ data_text d]
| Rs_no_segment k : for_segment i k -> (N.of_nat (length chunks) <= k)%N ->
    replies now i RpNack [str "Interest: " ++ interest_text i; str "Interest cannot be satisfied, sending Nack"]
| Rs_first d : for_content i -> segment 0 d -> matches_data digest i d = true ->
    replies now i (RpData d) [str "Interest: " ++ interest_text i; str "Data: " ++ data_text d]
| Rs_not_first d : for_content i -> segment 0 d -> matches_data digest i d = false ->
    replies now i RpNack [str "Interest: " ++ interest_text i; str "Interest cannot be satisfied, sending Nack"]
| Rs_metadata d : for_metadata i -> i_canBePrefix i = true ->
    d = Packet (i_name i ++ [version_comp cv now; segment_comp cv 0]) (encode_name (plain ++ [v])) None 10 ->
    replies now i (RpData d) [str "Discovery Interest: " ++ interest_text i; str "Sending metadata: " ++ data_text d]
| Rs_no_metadata : for_metadata i -> i_canBePrefix i = false ->
    replies now i RpNack [str "Discovery Interest: " ++ interest_text i; str "Discovery Interest lacks CanBePrefix, sending Nack"].
(** the Face sends packets of at most 8800 octets; [w]: the length of the Interest, which is
    contained in a Nack *)
Definition can_be_sent (w : nat) (r : reply) : Prop :=
  match r with
  | RpData d => (packet_size (octets (fst (sign d))) (octets (snd (sign d))) d <= 8800)%N
  | RpNack => (elem_size 100 (elem_size 800 0 + elem_size 80 (N.of_nat w)) <= 8800)%N
  end.
Definition told (l : list text) : text := if ua_verbose a then unlines l else [].

Inductive publishing : list put_happens -> list reply -> text -> put_end -> Prop :=
| Pb_waits : publishing [] [] [] URunning
| Pb_foreign now w i es s e x : ~ for_content i -> ~ for_metadata i -> (forall k, ~ for_segment i k) ->
    publishing es s e x -> publishing (UServe (CpInterest now w i) :: es) s e x
| Pb_replies now w i r m es s e x : replies now i r m -> can_be_sent w r ->
    publishing es s e x -> publishing (UServe (CpInterest now w i) :: es) (r :: s) (told m ++ e) x
| Pb_too_long now w i r m es : replies now i r m -> ~ can_be_sent w r ->
    publishing (UServe (CpInterest now w i) :: es) [] (told m ++ unlines [str "ERROR: " ++ put_error]) (UExited 1)
| Pb_not_registered reason es :
    publishing (UServe (CpRegFailure reason) :: es) []
      (unlines [str "ERROR: Failed to register prefix '" ++ name_uri plain ++ str "' (" ++ reason ++ str ")"]) (UExited 0)
| Pb_fails what es : publishing (UFails what :: es) [] (unlines [str "ERROR: " ++ what]) (UExited 1).
End Publication.

Definition complains (what : text) : put_result := PutResult [] [] (unlines [str "ERROR: " ++ what]) (UExited 2).
(** [complaint a m]: the first thing wrong with the options *)
Inductive put_complaint (a : put_args) : text -> Prop :=
| Uc_conv : (forall cv, ~ chosen_convention default_cv (ua_conv a) cv) ->
    put_complaint a (str "'" ++ ua_conv a ++ str "' is not a valid naming convention")
| Uc_fresh cv : chosen_convention default_cv (ua_conv a) cv -> ua_fresh a < 0 -> put_complaint a (str "--freshness cannot be negative")
| Uc_size cv : chosen_convention default_cv (ua_conv a) cv -> 0 <= ua_fresh a -> ~ (1 <= ua_size a <= 8800)%N ->
    put_complaint a (str "--size must be between 1 and 8800")
| Uc_signing cv what : chosen_convention default_cv (ua_conv a) cv -> 0 <= ua_fresh a -> (1 <= ua_size a <= 8800)%N ->
    parse_signing (ua_signing a) = SgInvalid what -> put_complaint a what
| Uc_both cv : chosen_convention default_cv (ua_conv a) cv -> 0 <= ua_fresh a -> (1 <= ua_size a <= 8800)%N ->
    parse_signing (ua_signing a) = SgValid -> ua_quiet a = true -> ua_verbose a = true ->
    put_complaint a (str "cannot be quiet and verbose at the same time").
Record put_accepts (a : put_args) (cv : convention) : Prop := PutAccepts {
  uk_help : ua_help a = false;
  uk_version : ua_version a = false;
  uk_prefix : ua_prefix a <> [];
  uk_conv : chosen_convention default_cv (ua_conv a) cv;
  uk_fresh : 0 <= ua_fresh a;
  uk_size : (1 <= ua_size a <= 8800)%N;
  uk_signing : parse_signing (ua_signing a) = SgValid;
  uk_verbose : ua_quiet a = false \/ ua_verbose a = false
}.
Definition unless_quiet (a : put_args) (l : list text) : text := if ua_quiet a then [] else unlines l.

Inductive put_behaves (now : N) (input : list N) (es : list put_happens) : text + put_args -> put_result -> Prop :=
| Ub_wrong what : put_behaves now input es (inl what) (complains what)
| Ub_help a : ua_help a = true -> put_behaves now input es (inr a) (PutResult [] usage [] (UExited 0))
| Ub_version a : ua_help a = false -> ua_version a = true -> put_behaves now input es (inr a) (PutResult [] version [] (UExited 0))
| Ub_no_prefix a : ua_help a = false -> ua_version a = false -> ua_prefix a = [] ->
    put_behaves now input es (inr a) (PutResult [] [] usage (UExited 2))
| Ub_complaint a m : ua_help a = false -> ua_version a = false -> ua_prefix a <> [] -> put_complaint a m ->
    put_behaves now input es (inr a) (complains m)
| Ub_signing a cv : ua_help a = false -> ua_version a = false -> ua_prefix a <> [] ->
    chosen_convention default_cv (ua_conv a) cv -> 0 <= ua_fresh a -> (1 <= ua_size a <= 8800)%N -> parse_signing (ua_signing a) = SgThrows ->
    put_behaves now input es (inr a) (PutResult [] [] [] UAborted)
| Ub_no_start a cv what : put_accepts a cv -> start_error = Some what ->
    put_behaves now input es (inr a) (PutResult [] [] (unlines [str "ERROR: " ++ what]) (UExited 1))
| Ub_bad_name a cv what : put_accepts a cv -> start_error = None -> parse_name (ua_prefix a) = inr what ->
    put_behaves now input es (inr a) (PutResult [] [] (unlines [str "ERROR: " ++ what]) (UExited 1))
| Ub_no_load a cv n plain v what : put_accepts a cv -> start_error = None -> parse_name (ua_prefix a) = inl n ->
    versioned cv now n plain v -> load_error (plain ++ [v]) input = Some what ->
    put_behaves now input es (inr a)
      (PutResult [] [] (unless_quiet a [str "Loading input ..."] ++ unlines [str "ERROR: " ++ what]) (UExited 1))
| Ub_run a cv n plain v chunks s e x : put_accepts a cv -> start_error = None -> parse_name (ua_prefix a) = inl n ->
    versioned cv now n plain v -> load_error (plain ++ [v]) input = None ->
    segmentation (N.to_nat (ua_size a)) input chunks ->
    publishing a cv plain v chunks es s e x ->
    put_behaves now input es (inr a)
      (PutResult s (if ua_show a then unlines [comp_uri v] else [])
         (unless_quiet a [ str "Loading input ...";
                           str "Published " ++ to_string (N.of_nat (length chunks)) ++
                           (if Nat.eqb (length chunks) 1 then str " Data packet" else str " Data packets") ++
                           str " with prefix " ++ name_uri (plain ++ [v]) ] ++ e) x).
End Program.
