(** Model of ndn-dissect as a program: tools/dissect/main.cpp, and Dissector::dissect on a
    stream whose reading may fail.

    Environment: the command line has been parsed (Boost.Program_options); a stream is the
    octets that can be read and whether reading fails after them (istream::peek gives eof in
    either case, and Block::fromStream throws in either case if it needs more octets); the
    text of the exception of Block::fromStream is an arbitrary function of the octets from
    the position where the element starts. *)
From Verif Require Import Base TlvModel PingModel DumpModel DissectModel.
From Coq Require Import String List.
Import ListNotations.
Local Open Scope N_scope.
Local Open Scope list_scope.

Record stream := Stream { st_octets : list N; st_fails : bool }.
(** main.cpp L44-65 *)
Record dissect_args := DissectArgs { da_help : bool; da_version : bool; da_content : bool; da_file : option text }.
Record dissect_result := DissectResult { dr_stdout : text; dr_stderr : text; dr_status : N }.

(** inputFileName != "-", main.cpp L87 *)
Definition is_dash (f : text) : bool := match f with [c] => c =? 45 | _ => false end.

Section Program.
Variable keep : bool.
Variable limit : N.
Variable what : list N -> text.
Variable program usage version : text.     (* argv[0]; L34-40; L81 *)
Variable stdin : stream.
Variable open_file : text -> option stream.

(** dissector.cpp L42-56 *)
Definition dissect_stream (content : bool) (s : stream) : option (text * text) :=
  match dissect keep limit content (st_octets s) with
  | None => None
  | Some (d, None) => Some (d_out d, [])
  | Some (d, Some off) =>
      Some (d_out d, str "ERROR: " ++ what (skipn off (st_octets s)) ++ str " at offset " ++ dec off ++ [10])
  end.

(** main.cpp L42-101; [inl]: the text of the exception of Boost.Program_options *)
Definition dissect_program (cmd : text + dissect_args) : option dissect_result :=
  let show content s :=                                                      (* L97-100 *)
    match dissect_stream content s with
    | None => None
    | Some (out, err) => Some (DissectResult out err 0)
    end in
  match cmd with
  | inl e => Some (DissectResult [] (str "ERROR: " ++ e ++ [10]) 2)          (* L70-73 *)
  | inr a =>
      if da_help a then Some (DissectResult usage [] 0)                      (* L75-78 *)
      else if da_version a then Some (DissectResult version [] 0)            (* L80-83 *)
      else match da_file a with                                              (* L85-95 *)
           | None => show (da_content a) stdin
           | Some f =>
               if is_dash f then show (da_content a) stdin
               else match open_file f with
               | None => Some (DissectResult [] (program ++ str ": " ++ f ++ str ": File does not exist or is unreadable" ++ [10]) 3)
               | Some s => show (da_content a) s
               end
           end
  end.
End Program.
