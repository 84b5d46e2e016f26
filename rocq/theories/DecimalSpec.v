(** Decimal literals, and rounding to six significant digits. *)
From Verif Require Import Base PingModel DumpModel DumpSpec.
From Coq Require Import String Reals.
From Coq Require Import List.
From Flocq Require Import Core.
Import ListNotations.
Local Open Scope R_scope.
Local Open Scope list_scope.

(** [literal t r]: the text [t] is a decimal literal of the number [r]: an optional sign, digits,
    optionally a point and more digits, optionally an exponent *)
Definition literal (t : text) (r : R) : Prop :=
  exists (neg : bool) (i f : text) (ni nf : N) (ex : option (bool * text * N)),
    t = (if neg then str "-" else []) ++ i ++ (match f with [] => [] | _ => str "." ++ f end) ++
        (match ex with None => [] | Some (s, k, _) => str "e" ++ (if s then str "-" else str "+") ++ k end) /\
    i <> [] /\ decimal i ni /\ decimal f nf /\
    (forall s k n, ex = Some (s, k, n) -> k <> [] /\ decimal k n) /\
    r = (if neg then -1 else 1) * (IZR (Z.of_N ni) + IZR (Z.of_N nf) / 10 ^ length f) *
        match ex with None => 1 | Some (false, _, n) => 10 ^ N.to_nat n | Some (true, _, n) => / 10 ^ N.to_nat n end.

Definition radix10 : radix := Build_radix 10 eq_refl.
(** the nearest number with six significant decimal digits, of two equally near ones the one
    with an even last digit *)
Definition six_digit (r : R) : R := round radix10 (FLX_exp 6) ZnearestE r.
