(** * Specification of quotients, nine digits at a time. *)
From Coq Require Import ZArith QArith Qabs Qround.
From Verif Require Import Rust Model_Base Spec.
Open Scope Z_scope.

(** The nine digits of [|q|] that end [9 * k] digits after the point: the
    group 1 are the first nine digits after the point, the group 0 the last
    nine before it. *)
Definition group (q : Q) (k : Z) : Z := Qfloor (Qabs q * pow10 (9 * k)) mod base.

(** The fractional units a division aims at. *)
Definition asked_units (a b : fd) (incr : Z) : Z :=
  Z.min 4 (Z.max (fu a + fu b) (units_for (frac_digits a + frac_digits b + incr))).

(** The quotient [a / b], to [F] groups after the point, is tame:
    - no group, up to the last wanted, is within ten of 10^9;
    - the digits of [b] end at most one group after those of [a] (the more so
      the larger the quotient), or every group but the two leading ones is at least 36. *)
Definition tame (F : Z) (a b : fd) : Prop :=
  let q := (value a / value b)%Q in
  (forall k, k <= F -> group q k <= 999999989) /\
  ((exists E y, 0 <= E /\ (E = 0 \/ (pow10 (9 * (E - 1)) <= Qabs q)%Q) /\ (value b * pow10 (9 * (fu a + E + 1)) == inject_Z y)%Q) \/
   (forall k, k <= F + 1 -> (1 <= Qabs q * pow10 (9 * (k - 2)))%Q -> 36 <= group q k)).

(** The integral part of the quotient [a / b] is tame: none of its groups is
    within ten of 10^9, nor are the first nine digits after the point. *)
Definition tame_integral (a b : fd) : Prop := forall k, k <= 1 -> group (value a / value b) k <= 999999989.

(** ** Where a division returns at all *)

(** The integral digits [n] and units [e] that the code foresees for the
    quotient of two decimals whose leading digits are at [p] and [q]. It compares
    the operands as if both began in the same unit. *)
Definition starts_above (a b : fd) (p q : Z) : bool := Qle_bool (pow10 (9 * (p / 9 - q / 9))) (Qabs (value a / value b)).
Definition foreseen_digits (a b : fd) (p q : Z) : Z := p - q + (if starts_above a b p q then 1 else 0).
Definition foreseen_units (a b : fd) (p q : Z) : Z := p / 9 - q / 9 + (if starts_above a b p q then 1 else 0).

(** The counts of digits are within what an i8 and the table of unit counts can
    take; and the quotient does not fill all nine units while the dividend does
    and the divisor has more than one unit. *)
Definition division_fits (a b : fd) (incr : Z) : Prop := forall p q, leading_digit a p -> leading_digit b q ->
  fu a + fu b <= 13 /\ frac_digits a + frac_digits b + incr <= 119 /\ -118 <= foreseen_digits a b p q <= 119 /\
  ~ (9 * (8 - fu a) <= p /\ 9 * (1 - fu b) <= q /\ starts_above a b p q = true /\
     foreseen_units a b p q <= 9 <= foreseen_units a b p q + asked_units a b incr).
