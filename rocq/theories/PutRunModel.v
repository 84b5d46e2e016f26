(** ndnputchunks as a program: tools/chunks/putchunks/main.cpp with producer.cpp; everything it
    sends and prints, and its exit status.

    Environment: as in ServeModel.v; the command line has been parsed (Boost.Program_options), the
    text forms of names, packets and exceptions and the usage text are arbitrary.  The naming
    convention that applies without option -N belongs to ndn-cxx.  An exception may leave
    Face::processEvents at any time. *)
From Verif Require Import Base TlvModel PeekPokeModel PutchunksModel DumpModel ServeModel.
From Coq Require Import String List.
Import ListNotations.
Local Open Scope Z_scope.
Local Open Scope list_scope.

(** main.cpp L60-80: the parsed options; texts that are not given are empty *)
Record put_args := PutArgs {
  ua_help : bool; ua_version : bool; ua_prefix : text; ua_fresh : Z; ua_size : N; ua_conv : text; ua_signing : text;
  ua_show : bool; ua_quiet : bool; ua_verbose : bool
}.
(** the constructor of SigningInfo: an exception of class invalid_argument or of another one *)
Inductive signing := SgValid | SgInvalid (what : text) | SgThrows.
(** [UAborted]: an exception that nobody catches *)
Inductive put_end := URunning | UExited (status : Z) | UAborted.
Record put_result := PutResult { uo_sent : list reply; uo_stdout : text; uo_stderr : text; uo_end : put_end }.
(** what happens: an event of ServeModel.v or an exception *)
Inductive put_happens := UServe (e : cpevent) | UFails (what : text).

Section Put.
Variable digest : packet -> component.
Variable sign : packet -> list N * list N.
Variable name_uri : name -> text.
Variable comp_uri : component -> text.
Variable interest_text : interest -> text.
Variable data_text : packet -> text.
Variable usage version : text.                      (* L44-53, L109 *)
Variable default_cv : convention.
Variable parse_signing : text -> signing.
Variable parse_name : text -> name + text.          (* the constructor of Name; [inr]: an exception *)
Variable start_error : option text.                 (* an exception of the constructors of Face and KeyChain *)
Variable load_error : name -> list N -> option text.  (* an exception of the Segmenter: reading or signing fails *)
Variable put_error : text.                          (* the exception of Face::put for a packet that is too long *)

(** L118-127; None: rejected *)
Definition conv_is (s : text) (l : list string) : bool := existsb (fun x => if list_eq_dec N.eq_dec s (str x) then true else false) l.
Definition convention_of (s : text) : option convention :=
  if conv_is s ["marker"; "m"; "1"]%string then Some CvMarker
  else if conv_is s ["typed"; "t"; "2"]%string then Some CvTyped
  else match s with [] => Some default_cv | _ => None end.

(** L153-164: an exception is reported *)
Definition ur_fail (what : text) (s : chunkserver) : chunkserver :=
  ChunkServer (cp_sent s) (Some 1) (cp_stdout s) (cp_stderr s ++ str "ERROR: " ++ what ++ newline).
(** producer.cpp L92-96; the handlers are in ServeModel.v *)
Definition ur_step (u : putopts) (cv : convention) (p : producer) (s : chunkserver) (e : put_happens) : chunkserver :=
  match cp_status s with
  | Some _ => s
  | None =>
      match e with
      | UFails what => ur_fail what s
      | UServe e =>
          let s' := cp_step digest sign name_uri interest_text data_text u cv p s e in
          match cp_status s' with Some 1 => ur_fail put_error s' | _ => s' end
      end
  end.
Definition ur_result (s : chunkserver) : put_result :=
  PutResult (cp_sent s) (cp_stdout s) (cp_stderr s) match cp_status s with None => URunning | Some z => UExited z end.
(** L153-164, producer.cpp L40-96; [now]: the clock when the producer is made *)
Definition put_go (a : put_args) (cv : convention) (now : N) (input : list N) (es : list put_happens) : put_result :=
  let failed err what := PutResult [] [] (err ++ str "ERROR: " ++ what ++ newline) (UExited 1) in
  match start_error with
  | Some what => failed [] what                                                        (* L154-155 *)
  | None =>
      match parse_name (ua_prefix a) with
      | inr what => failed [] what                                                     (* L156 *)
      | inl n =>
          let p := make_producer cv now (POpts (N.to_nat (ua_size a)) (ua_fresh a)) n input in
          let u := PutOpts (ua_quiet a) (ua_verbose a) (ua_show a) in
          match load_error (pr_vprefix p) input with
          | Some what => failed (if ua_quiet a then [] else str "Loading input ..." ++ newline) what   (* producer.cpp L55-59 *)
          | None => ur_result (fold_left (ur_step u cv p) es (cp_start name_uri comp_uri u p))
          end
      end
  end.
(** main.cpp L55-165; [inl]: the text of a po::error or of bad_any_cast *)
Definition put_program (cmd : text + put_args) (now : N) (input : list N) (es : list put_happens) : put_result :=
  let bad msg := PutResult [] [] (str "ERROR: " ++ msg ++ newline) (UExited 2) in
  match cmd with
  | inl what => bad what                                                               (* L94-101 *)
  | inr a =>
      if ua_help a then PutResult [] usage [] (UExited 0)                              (* L103-106 *)
      else if ua_version a then PutResult [] version [] (UExited 0)                    (* L108-111 *)
      else match ua_prefix a with
           | [] => PutResult [] [] usage (UExited 2)                                   (* L113-116 *)
           | _ =>
               match convention_of (ua_conv a) with
               | None => bad (str "'" ++ ua_conv a ++ str "' is not a valid naming convention")        (* L124-127 *)
               | Some cv =>
                   if ua_fresh a <? 0 then bad (str "--freshness cannot be negative")                  (* L129-133 *)
                   else if (ua_size a <? 1)%N || (8800 <? ua_size a)%N
                   then bad (str "--size must be between 1 and 8800")                                  (* L135-138 *)
                   else match parse_signing (ua_signing a) with
                        | SgInvalid what => bad what                                                   (* L140-146 *)
                        | SgThrows => PutResult [] [] [] UAborted
                        | SgValid =>
                            if ua_quiet a && ua_verbose a
                            then bad (str "cannot be quiet and verbose at the same time")              (* L148-151 *)
                            else put_go a cv now input es
                        end
               end
           end
  end.
End Put.
