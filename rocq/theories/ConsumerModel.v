(** Model of tools/chunks/catchunks/consumer.{hpp,cpp}.

    The validator (ndn-cxx) is part of the environment: an event says that it accepted
    or rejected the Data of a segment.  ndncatchunks uses the accept-all validator
    (main.cpp L291), which calls back at once.  An exception leaves face.processEvents()
    and ends the program (main.cpp L292-309), so that later events are ignored.
    Not modelled: write errors on the output stream; the hand-over from the version
    discovery (see DiscoverModel). *)
From Verif Require Import Base.

(** std::map<uint64_t, shared_ptr<const Data>>::operator[] = ..., consumer.cpp L71:
    association list sorted by key *)
Fixpoint sm_set (k : N) (d : data) (m : list (N * data)) : list (N * data) :=
  match m with
  | [] => [(k, d)]
  | (k', d') :: m' =>
      if N.ltb k k' then (k, d) :: (k', d') :: m'
      else if N.eqb k k' then (k, d) :: m'
      else (k', d') :: sm_set k d m'
  end.

(** main.cpp L294-311: how the program ended *)
Inductive cstatus := CRunning | CAppNack | CInvalid.

(** consumer.hpp L93-101 members; [co_out]: bytes written to the output stream *)
Record consumer := Consumer {
  co_next   : N;
  co_buf    : list (N * data);
  co_out    : list N;
  co_status : cstatus
}.

(** consumer.cpp L40-46 *)
Definition co_init : consumer := Consumer 0 [] [] CRunning.

(** consumer.cpp L79-88: loop over the map from its beginning *)
Fixpoint writeInOrderData (buf : list (N * data)) (next : N) (out : list N) : N * list (N * data) * list N :=
  match buf with
  | [] => (next, [], out)
  | (k, d) :: buf' =>
      if N.eqb k next then writeInOrderData buf' (next + 1)%N (out ++ d_content d)
      else (next, buf, out)
  end.

(** The validator's verdict on a segment's Data. *)
Inductive cevent := CeAccept (seg : N) (d : data) | CeReject (seg : N) (d : data).

(** consumer.cpp L59-77 *)
Definition co_step (c : consumer) (e : cevent) : consumer :=
  match co_status c with
  | CRunning =>
      match e with
      | CeReject _ _ => Consumer (co_next c) (co_buf c) (co_out c) CInvalid
      | CeAccept seg d =>
          if d_appnack d then Consumer (co_next c) (co_buf c) (co_out c) CAppNack
          else let '(next, buf, out) :=
                 writeInOrderData (sm_set seg d (co_buf c)) (co_next c) (co_out c) in
               Consumer next buf out CRunning
      end
  | _ => c
  end.

Definition co_run (es : list cevent) : consumer := fold_left co_step es co_init.

(** main.cpp L294-305: exit status caused by the consumer; None: no exception *)
Definition co_exit (c : consumer) : option Z :=
  match co_status c with CRunning => None | CAppNack => Some 3 | CInvalid => Some 5 end.
