(** * Specification: the guesses a debug build checks in a division. *)
From Coq Require Import ZArith QArith Qabs.
From Verif Require Import Rust Model_Base Spec Spec_Div Spec_Machine.
Open Scope Z_scope.

(** Every first guess in the long division [a / b] is a unit, [incr] more fractional digits being
    asked for. The quotient has [e] integral units and gets [F] fractional ones. *)
Definition first_guesses_fit (a b : fd) (incr : Z) : Prop := forall e, 0 <= e <= 9 ->
  (Qabs (value a / value b) < pow10 (9 * e))%Q -> (0 < e -> (pow10 (9 * (e - 1)) <= Qabs (value a / value b))%Q) ->
  let F := Z.min (9 - e) (asked_units a b incr) in
  guesses_small (magnitude a * base ^ (F + fu b)) (magnitude b * base ^ fu a).

(** The same for integers, with a divisor of 10 to 18 digits: the last nine integral digits of the
    quotient, and the nine digits behind the point, are guessed below 10^9. *)
Definition quotient_guesses_fit (x y : Z) : Prop := 10 ^ 9 <= Z.abs y < 10 ^ 18 ->
  let f := 10 ^ 9 / (Z.abs y / 10 ^ 9 + 1) in let d := f * Z.abs y / 10 ^ 9 in
  f * (Z.abs x mod (Z.abs y * 10 ^ 9)) / 10 ^ 9 / d < 10 ^ 9 /\ f * (Z.abs x mod Z.abs y) / d < 10 ^ 9.

(** The divisor has no more fractional units than the dividend and the
    integral part of the quotient together. *)
Definition nothing_cut (a b : fd) : Prop :=
  fu b <= fu a \/ (pow10 (9 * (fu b - fu a - 1)) <= Qabs (value a / value b))%Q.

(** Every corrected guess in the division, except that of the last unit, is
    right. *)
Definition right_but_last (x y : Z) : Prop := forall len j,
  2 <= len -> base ^ (len - 1) <= y < base ^ len -> 1 <= j -> y * base ^ j <= x -> second_guess x y len j = quotient_unit x y j.
Definition guesses_right_but_last (a b : fd) (incr : Z) : Prop := forall e, 0 <= e <= 9 ->
  (Qabs (value a / value b) < pow10 (9 * e))%Q -> (0 < e -> (pow10 (9 * (e - 1)) <= Qabs (value a / value b))%Q) ->
  let F := Z.min (9 - e) (asked_units a b incr) in
  right_but_last (magnitude a * base ^ (F + fu b)) (magnitude b * base ^ fu a).

(** The same for integers, with a divisor of 19 or 20 digits: dropping nine digits does not change the
    integral part, and the nine digits behind the point are guessed below 10^9. *)
Definition long_quotient_found (x y : Z) : Prop :=
  (Z.abs y <= Z.abs x -> shortened_quotient x y = Z.abs x / Z.abs y) /\
  let f := 10 ^ 9 / (Z.abs y / 10 ^ 18 + 1) in f * (Z.abs x mod Z.abs y) / 10 ^ 9 / (f * Z.abs y / 10 ^ 18) < 10 ^ 9.
(** The first half of it, and all that a release build needs, for divisors of any length. *)
Definition quotient_found (x y : Z) : Prop := 10 ^ 18 <= Z.abs y -> Z.abs y <= Z.abs x -> shortened_quotient x y = Z.abs x / Z.abs y.
