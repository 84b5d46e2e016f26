(** Vocabulary for statements about the output of ndnping. *)
From Verif Require Import Base TlvModel PingModel PingSpec PingStatsSpec DumpModel DumpSpec DecimalSpec.
From Coq Require Import String Reals.
From Coq Require Import List.
Import ListNotations.
Local Open Scope R_scope.
Local Open Scope list_scope.

(** the text shows the number, which is not negative, with the given relative error *)
Definition shows (t : text) (tol x : R) : Prop := exists r, literal t r /\ Rabs (r - x) <= tol * x.

Definition LF : text := [10%N].

(** [line uri reason x t]: [t] is a correct line for the outcome [x] of a ping: its kind, the
    sequence number and the time to six digits *)
Inductive line (uri : text) (reason : N -> text) : gobs -> text -> Prop :=
| line_data k rtt s t : decimal s k -> s <> [] -> shows t (51 / 10000000) (exact_ms rtt) ->
    line uri reason (GData k rtt) (str "content from " ++ uri ++ str ": seq=" ++ s ++ str " time=" ++ t ++ str " ms" ++ LF)
| line_nack k rtt s t : decimal s k -> s <> [] -> shows t (51 / 10000000) (exact_ms rtt) ->
    line uri reason (GNack k rtt) (str "nack from " ++ uri ++ str ": seq=" ++ s ++ str " time=" ++ t ++ str " ms reason=" ++ reason k ++ LF)
| line_timeout k s : decimal s k -> s <> [] ->
    line uri reason (GTimeout k) (str "timeout from " ++ uri ++ str ": seq=" ++ s ++ LF).

(** the outcomes of pings, in order *)
Definition outcomes (h : list gobs) : list gobs :=
  filter (fun x => match x with GData _ _ | GNack _ _ | GTimeout _ => true | _ => false end) h.

(** ** The statistics *)
Definition counts (t : text) (n : nat) : Prop := t <> [] /\ decimal t (N.of_nat n).
(** a percentage: with an error of less than 0.0006, and 0 only if there is nothing *)
Definition shows_percent (t : text) (part whole : nat) : Prop :=
  exists r, literal t r /\ Rabs (r - 100 * INR part / INR whole) <= 51 / 100000 /\ 0 <= r <= 100 /\
            (r = 0 <-> part = 0%nat) /\ (part = whole -> r = 100).
Definition says_rates (h : list gobs) (t : text) : Prop :=
  let sent := length (settled_seqs h) in
  sent = 0%nat /\ t = [] \/
  sent <> 0%nat /\ exists l k, t = str ", " ++ l ++ str "% lost, " ++ k ++ str "% nacked" /\
    shows_percent l (length (timeout_seqs h)) sent /\ shows_percent k (length (nack_seqs h)) sent.

(** the mean of the squares, and the standard deviation of the round-trip times *)
Definition mean_sq (h : list gobs) : R := Rmean (map (fun r => (exact_ms r)²) (rtts h)).
Definition variance (h : list gobs) : R := mean_sq h - (Rmean (map exact_ms (rtts h)))².
(** "nan" is possible; else the error of the square is small relative to the mean of the squares *)
Definition shows_deviation (t : text) (h : list gobs) : Prop :=
  t = str "nan" \/
  exists r, literal t r /\ 0 <= r /\
    Rabs (r² - variance h) <= 11 / 1000000 * variance h + (4 * INR (length (rtts h)) + 21) / 2 ^ 52 * mean_sq h.
Definition says_rtts (intro : text) (h : list gobs) (t : text) : Prop :=
  rtts h = [] /\ t = [] \/
  exists lo hi mn av mx sd,
    t = intro ++ str "min/avg/max/mdev = " ++ mn ++ str "/" ++ av ++ str "/" ++ mx ++ str "/" ++ sd ++ str " ms" /\
    In lo (rtts h) /\ In hi (rtts h) /\ (forall r, In r (rtts h) -> (lo <= r <= hi)%N) /\
    shows mn (51 / 10000000) (exact_ms lo) /\ shows mx (51 / 10000000) (exact_ms hi) /\
    shows av (6 / 1000000) (Rmean (map exact_ms (rtts h))) /\ shows_deviation sd h.

(** the line printed for SIGQUIT *)
Definition summary (h : list gobs) (t : text) : Prop :=
  exists rc sn rates times,
    t = rc ++ str "/" ++ sn ++ str " packets" ++ rates ++ times ++ LF /\
    counts rc (length (data_seqs h)) /\ counts sn (length (settled_seqs h)) /\
    says_rates h rates /\ says_rtts (str ", ") h times.
(** what is printed at the end *)
Definition report (uri : text) (h : list gobs) (t : text) : Prop :=
  exists sn rc nk rates tm times,
    t = LF ++ str "--- " ++ uri ++ str " ping statistics ---" ++ LF ++
        sn ++ str " packets transmitted, " ++ rc ++ str " received, " ++ nk ++ str " nacked" ++ rates ++
        str ", time " ++ tm ++ str " ms" ++ times ++ LF /\
    counts sn (length (settled_seqs h)) /\ counts rc (length (data_seqs h)) /\ counts nk (length (nack_seqs h)) /\
    says_rates h rates /\ shows tm (6 / 1000000) (Rsum (map exact_ms (rtts h))) /\
    says_rtts (LF ++ str "rtt ") h times.

(** ** Executions *)
(** what a clock of 64 bits can measure; the number of pings fits an int *)
Definition measurable (es : list gevent) : Prop :=
  Forall (fun e => match e with GeData _ r | GeNack _ r => (r < 9223372036854775808)%N | _ => True end) es /\
  (Z.of_nat (length es) < 1000000000)%Z.

(** the same outcomes, with times that agree to the printed precision *)
Definition same_outcome (x y : gobs) : Prop :=
  match x, y with
  | GData k r, GData k' r' | GNack k r, GNack k' r' => k = k' /\ Rabs (exact_ms r - exact_ms r') <= 11 / 1000000 * exact_ms r
  | GTimeout k, GTimeout k' => k = k'
  | _, _ => False
  end.
Definition one_line (t : text) : Prop := ~ In 10%N t.
