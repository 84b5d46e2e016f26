(** Model of PipelineInterests::formatThroughput, chunks/catchunks/pipeline-interests.cpp
    L137-158, and of the std::to_string(double) that it uses (printf format "%f": six
    decimals, exact value rounded to nearest, ties to even, as in glibc). *)
From Verif Require Import Base PingModel DumpModel Double.
From Coq Require Import String.
From Coq Require Import List.
From Flocq Require Import BinarySingleNaN.
Import ListNotations.
Local Open Scope Z_scope.
Local Open Scope list_scope.

(** a / b, rounded to nearest, ties to even *)
Definition div_half_even (a b : Z) : Z :=
  let q := a / b in
  let r := a mod b in
  if 2 * r <? b then q else if b <? 2 * r then q + 1 else if Z.even q then q else q + 1.
(** millionths of m * 2^e *)
Definition millionths (m : positive) (e : Z) : Z :=
  if 0 <=? e then Zpos m * 2 ^ e * 1000000 else div_half_even (Zpos m * 1000000) (2 ^ (- e)).
(** decimal digits of a number of any size *)
Definition digits (n : N) : text := dec_aux (S (N.to_nat (N.log2 n))) n [].
Definition fixed6 (n : Z) : text := digits (Z.to_N (n / 1000000)) ++ str "." ++ pad6 (to_string (Z.to_N (n mod 1000000))).
(** std::to_string(double); the sign of NaN is not modelled *)
Definition to_string_double (x : f64) : text :=
  match x with
  | B754_zero s => (if s then str "-" else []) ++ fixed6 0
  | B754_infinity s => (if s then str "-" else []) ++ str "inf"
  | B754_nan => str "nan"
  | B754_finite s m e _ => (if s then str "-" else []) ++ fixed6 (millionths m e)
  end.

(** L140-144; [k]: 4 - pow; the result: the scaled value and the final pow *)
Fixpoint scale (k : nat) (x : f64) : f64 * nat :=
  match k with
  | O => (x, O)
  | S k => if fle (f_of_Z 1000) x then let '(y, p) := scale k (fdiv x (f_of_Z 1000)) in (y, S p) else (x, O)
  end.
(** L145-157 *)
Definition unit_text (p : nat) : text :=
  match p with
  | 0 => str " bit/s" | 1 => str " kbit/s" | 2 => str " Mbit/s" | 3 => str " Gbit/s" | 4 => str " Tbit/s" | _ => []
  end%nat.
Definition formatThroughput (x : f64) : text :=
  let '(y, p) := scale 4 x in
  match p with
  | 0 | 1 | 2 | 3 | 4 => to_string_double y ++ unit_text p
  | _ => []
  end%nat.
