(** operator<<(std::ostream&, double) with the default precision, as printf format "%g": the
    exact value rounded to six significant digits, ties to even (glibc); fixed notation if the
    decimal exponent is from -4 to 5, else scientific notation; no trailing zeros. *)
From Verif Require Import Base PingModel DumpModel Double ThroughputModel.
From Coq Require Import String.
From Coq Require Import List.
From Flocq Require Import BinarySingleNaN.
Import ListNotations.
Local Open Scope Z_scope.
Local Open Scope list_scope.

(** the decimal exponent of a / b: 10^x <= a / b < 10^(x+1) *)
Fixpoint log10_up (fuel : nat) (a b : Z) : Z :=
  match fuel with
  | O => 0
  | S k => if a <? 10 * b then 0 else 1 + log10_up k a (10 * b)
  end.
Fixpoint log10_down (fuel : nat) (a b : Z) : Z :=
  match fuel with
  | O => 0
  | S k => if b <=? a then 0 else log10_down k (10 * a) b - 1
  end.
Definition log10 (a b : Z) : Z :=
  if b <=? a then log10_up (S (Z.to_nat (Z.log2 a))) a b else log10_down (S (Z.to_nat (Z.log2 b))) a b.

(** m * 2^e, rounded: d and x such that it is about d * 10^(x-5), d has six digits *)
Definition six_digits (m : positive) (e : Z) : Z * Z :=
  let a := Zpos m * 2 ^ Z.max 0 e in
  let b := 2 ^ Z.max 0 (- e) in
  let x := log10 a b in
  let d := if x <=? 5 then div_half_even (a * 10 ^ (5 - x)) b else div_half_even a (b * 10 ^ (x - 5)) in
  if d =? 1000000 then (100000, x + 1) else (d, x).

Definition padded (k : nat) (n : N) : text := let t := digits n in repeat 48%N (k - length t) ++ t.
Fixpoint strip (t : text) : text :=      (* without trailing zeros *)
  match t with
  | [] => []
  | c :: t' => match strip t' with [] => if N.eqb c 48 then [] else [c] | r => c :: r end
  end.
(** d / 10^k, without trailing zeros *)
Definition fixed_text (d : Z) (k : Z) : text :=
  digits (Z.to_N (d / 10 ^ k)) ++
  match strip (padded (Z.to_nat k) (Z.to_N (d mod 10 ^ k))) with [] => [] | f => str "." ++ f end.
Definition exponent_text (x : Z) : text :=
  str "e" ++ (if x <? 0 then str "-" else str "+") ++ padded 2 (Z.to_N (Z.abs x)).
Definition layout (d x : Z) : text :=
  if (-4 <=? x) && (x <? 6) then fixed_text d (5 - x) else fixed_text d 5 ++ exponent_text x.

(** the sign of NaN is not modelled *)
Definition double_text (v : f64) : text :=
  match v with
  | B754_zero s => (if s then str "-" else []) ++ str "0"
  | B754_infinity s => (if s then str "-" else []) ++ str "inf"
  | B754_nan => str "nan"
  | B754_finite s m e _ => (if s then str "-" else []) ++ (let '(d, x) := six_digits m e in layout d x)
  end.
