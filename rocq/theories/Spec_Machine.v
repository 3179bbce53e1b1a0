(** * Specification: the remainder that the code computes of two machine integers. *)
From Coq Require Import ZArith.
Open Scope Z_scope.

(** The quotient of [|x|] and a [|y|] of 19 or 20 digits, as the code finds it: both are multiplied by
    the factor that makes the leading unit of [y] large, the last
    nine digits are dropped, and what is left is divided. *)
Definition shortened_quotient (x y : Z) : Z :=
  let f := 10 ^ 9 / (Z.abs y / 10 ^ 18 + 1) in (f * Z.abs x / 10 ^ 9) / (f * Z.abs y / 10 ^ 9).

(** The remainder: right, unless the divisor has 19 digits or more, the
    dividend is not smaller, and dropping nine digits changed the quotient; then
    it is the distance to the next multiple of [y], away from zero. *)
Definition remainder_computed (x y : Z) : Z :=
  if ((10 ^ 18 <=? Z.abs y) && (Z.abs y <=? Z.abs x) && negb (shortened_quotient x y =? Z.abs x / Z.abs y))%bool
  then Z.sgn x * (Z.abs y - Z.abs (Z.rem x y))
  else Z.rem x y.

(** Whether a debug build computes the remainder at all: it does, except that
    for divisors of 10 to 18 digits it panics if its first guess of the last nine digits of the quotient -
    from the leading digits of both scaled operands - is 10^9 or more. *)
Definition first_guess_fits (x y : Z) : Prop :=
  10 ^ 9 <= Z.abs y < 10 ^ 18 ->
  let f := 10 ^ 9 / (Z.abs y / 10 ^ 9 + 1) in (f * (Z.abs x mod (Z.abs y * 10 ^ 9)) / 10 ^ 9) / (f * Z.abs y / 10 ^ 9) < 10 ^ 9.
