(** Vocabulary for statements about the texts that ndncatchunks writes. *)
From Verif Require Import Base PipelineBase PipelineSpec AdaptiveModel TlvModel Double DumpModel DumpSpec DecimalSpec PingTextSpec.
From Coq Require Import String Reals.
From Coq Require Import List.
From Flocq Require Import BinarySingleNaN.
Import ListNotations.
Local Open Scope R_scope.
Local Open Scope list_scope.

Definition TAB : text := [9%N].
Definition ns_max : Z := 9223372036854775808.

(** the time that has passed *)
Definition passed (es : list aevent) : Z :=
  fold_right (fun e n => match e with AeTick dt => Z.of_N dt + n | _ => n end)%Z 0%Z es.

(** the window changes, the measurements and the completion in a history *)
Definition windows (h : list pobs) : list pobs := filter (fun o => match o with OWindow _ => true | _ => false end) h.
Definition samples (h : list pobs) : list pobs := filter (fun o => match o with ORttSample _ _ _ => true | _ => false end) h.
Definition completions (h : list pobs) : list pobs := filter (fun o => match o with ODone => true | _ => false end) h.

(** a line of the window log: the time in seconds, printed as the number [r], and the window,
    rounded to six digits *)
Definition cwnd_line (ns : Z) (w : f64) (r : R) (t : text) : Prop :=
  exists a b, t = a ++ TAB ++ b ++ LF /\
    literal a r /\ Rabs (r - IZR ns / 10 ^ 9) <= 51 / 10000000 * (IZR ns / 10 ^ 9) /\
    (is_finite w = true -> literal b (six_digit (B2R w))).

(** a time in milliseconds with six digits *)
Definition shows_ms (t : text) (ns : Z) : Prop :=
  (0 <= ns < ns_max)%Z -> shows t (51 / 10000000) (IZR ns / 10 ^ 6).
(** a line of the log of round-trip times *)
Definition rtt_line (seg : N) (rtt var srtt rto : Z) (t : text) : Prop :=
  exists s a b c d, t = s ++ TAB ++ a ++ TAB ++ b ++ TAB ++ c ++ TAB ++ d ++ LF /\
    ((seg < 18446744073709551616)%N -> s <> [] /\ decimal s seg) /\
    shows_ms a rtt /\ shows_ms b var /\ shows_ms c srtt /\ shows_ms d rto.

(** ** The summary *)
Definition bytes_delivered (h : list pobs) : nat := length (concat (map (fun p => d_content (snd p)) (deliveries h))).
Definition number (p : pobs -> bool) (h : list pobs) : nat := length (filter p h).

(** n / 1000 with three decimals *)
Definition shows_fixed3 (t : text) (x : R) : Prop :=
  exists s f ni nf, t = s ++ str "." ++ f /\ s <> [] /\ length f = 3%nat /\ decimal s ni /\ decimal f nf /\
    Rabs (IZR (Z.of_N ni) + IZR (Z.of_N nf) / 1000 - x) <= / 2000 + / 10 ^ 15 * x.
(** a rate in bit/s, as a number with six decimals and a unit *)
Definition shows_rate (t : text) (x : R) : Prop :=
  exists s f ni nf p, t = s ++ str "." ++ f ++ nth p [str " bit/s"; str " kbit/s"; str " Mbit/s"; str " Gbit/s"; str " Tbit/s"] [] /\
    (p <= 4)%nat /\ s <> [] /\ length f = 6%nat /\ decimal s ni /\ decimal f nf /\
    Rabs ((IZR (Z.of_N ni) + IZR (Z.of_N nf) / 10 ^ 6) * 1000 ^ p - x) <= 1000 ^ p / 2000000 + x / 10 ^ 14.

(** the part that all pipelines print *)
Definition transfer_report (elapsed : Z -> text) (ns : Z) (h : list pobs) (t : text) : Prop :=
  exists n size rate,
    t = LF ++ LF ++ str "All segments have been received." ++ LF ++
        str "Time elapsed: " ++ elapsed ns ++ LF ++
        str "Segments received: " ++ n ++ LF ++
        str "Transferred size: " ++ size ++ str " kB" ++ LF ++
        str "Goodput: " ++ rate ++ LF /\
    counts n (length (deliveries h)) /\
    shows size (51 / 10000000) (INR (bytes_delivered h) / 1000) /\
    ((0 < ns)%Z -> shows_rate rate (8 * INR (bytes_delivered h) / (IZR ns / 10 ^ 9))).
Definition rtt_report (r : option (Z * Z * Z)) (t : text) : Prop :=
  match r with
  | None => t = str "RTT stats unavailable" ++ LF
  | Some (mn, av, mx) =>
      exists a b c, t = str "RTT min/avg/max = " ++ a ++ str "/" ++ b ++ str "/" ++ c ++ str " ms" ++ LF /\
        ((0 <= mn < ns_max)%Z -> shows_fixed3 a (IZR mn / 10 ^ 6)) /\
        ((0 <= av < ns_max)%Z -> shows_fixed3 b (IZR av / 10 ^ 6)) /\
        ((0 <= mx < ns_max)%Z -> shows_fixed3 c (IZR mx / 10 ^ 6))
  end.
(** what the adaptive pipelines print; [rtts]: the round-trip times that the estimator reports *)
Definition full_report (elapsed : Z -> text) (ns : Z) (rtts : option (Z * Z * Z)) (h : list pobs) (t : text) : Prop :=
  exists base mk md to ld rx pc sk rt,
    t = base ++ str "Congestion marks: " ++ mk ++ str " (caused " ++ md ++ str " window decreases)" ++ LF ++
        str "Timeouts: " ++ to ++ str " (caused " ++ ld ++ str " window decreases)" ++ LF ++
        str "Retransmitted segments: " ++ rx ++ str " (" ++ pc ++ str "%), skipped: " ++ sk ++ LF ++ rt /\
    transfer_report elapsed ns h base /\
    counts mk (length (filter (fun p => d_mark (snd p)) (deliveries h))) /\
    counts md (number (fun o => match o with ODecrMark _ => true | _ => false end) h) /\
    counts to (number (fun o => match o with OGotExpiry _ | ORto _ => true | _ => false end) h) /\
    counts ld (number (fun o => match o with ODecrLoss _ => true | _ => false end) h) /\
    counts rx (number (fun o => match o with OInterest _ true => true | _ => false end) h) /\
    shows pc (51 / 10000000) (100 * INR (number (fun o => match o with OInterest _ true => true | _ => false end) h) /
                              INR (number (fun o => match o with OInterest _ _ => true | _ => false end) h)) /\
    counts sk (number (fun o => match o with OSkip _ => true | _ => false end) h) /\
    rtt_report rtts rt.
(** every number in it fits 64 bits *)
Definition countable (h : list pobs) : Prop :=
  (Z.of_nat (length h) < 1000000000000000)%Z /\ (Z.of_nat (bytes_delivered h) < 1152921504606846976)%Z.
