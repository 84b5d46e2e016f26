(** Vocabulary for statements about the statistics of ndnping: real numbers. *)
From Verif Require Import Base TlvModel PingModel.
From Coq Require Import Reals.

(** the round-trip times of the answered pings, in nanoseconds *)
Definition rtts (h : list gobs) : list N := flat_map (fun x => match x with GData _ r => [r] | _ => [] end) h.

Definition Rsum (l : list R) : R := fold_right Rplus 0%R l.
Definition Rmean (l : list R) : R := (Rsum l / IZR (Z.of_nat (length l)))%R.

(** the same in milliseconds, exactly *)
Definition exact_ms (ns : N) : R := (IZR (Z.of_N ns) / 1000000)%R.

(** what a clock of 64 bits can measure, and what an int can count *)
Definition plausible (h : list gobs) : Prop :=
  Forall (fun r => (r < 9223372036854775808)%N) (rtts h) /\ (Z.of_nat (length h) < 2147483648)%Z.
