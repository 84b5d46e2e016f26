(** What is assumed for an upper bound on the CUBIC window. *)
From Verif Require Import Base Double WindowModel.
From Coq Require Import Reals.
From Flocq Require Import Core BinarySingleNaN.
Local Open Scope R_scope.

(** [std::cbrt] and [std::pow(x, 3)] of the platform, very roughly: finite, of the right sign and not
    of a wrong order of magnitude *)
Definition root_like (cbrt : f64 -> f64) : Prop := forall x,
  is_finite x = true -> 0 <= B2R x <= bpow radix2 64 ->
  is_finite (cbrt x) = true /\ 0 <= B2R (cbrt x) <= B2R x + 1.
Definition cube_like (pow3 : f64 -> f64) : Prop := forall x,
  is_finite x = true -> - bpow radix2 65 <= B2R x <= 1000000 ->
  is_finite (pow3 x) = true /\ - bpow radix2 200 <= B2R (pow3 x) <= 2 * Rmax 0 (B2R x) ^ 3 + 1.

(** the initial window is not huge and the factor beta is between 0 and 1 *)
Definition cubic_moderate (o : cubic_opts) : Prop :=
  B2R (cu_initCwnd o) <= bpow radix2 40 /\ is_finite (cu_beta o) = true /\ 0 <= B2R (cu_beta o) <= 1.

(** a smoothed round-trip time in nanoseconds: not 0, and it fits 64 bits *)
Definition usable_rtt (ns : Z) : Prop := (ns <> 0 /\ Z.abs ns <= 9223372036854775808)%Z.

(** the window changes happen one after the other, within 10^15 nanoseconds (eleven days) *)
Fixpoint timely (from : Z) (ops : list wop) : Prop :=
  match ops with
  | [] => True
  | Increase now srtt :: rest => (from <= now <= 1000000000000000)%Z /\ usable_rtt srtt /\ timely now rest
  | Decrease now :: rest => (from <= now <= 1000000000000000)%Z /\ timely now rest
  end.
