(** * Specification of histories with division. *)
From Coq Require Import ZArith List QArith Qabs.
From Verif Require Import Rust Model_Base Spec Spec_Div Spec_Guess Spec_History.
Open Scope Z_scope.

(** The calls of [exact_call], products of operands that declare all their
    digits, and divisions with a sane request: by every divisor of two significant units, with every tame quotient,
    and otherwise as long as no unit of the divisor is cut off, where in a release build also the guesses have to be right. *)
Definition computing_call (m : build) (st : state) (c : call) : Prop :=
  match c with
  | Mul i j _ => tight (st i) /\ tight (st j) /\ product_fits (st i) (st j)
  | Div i j _ incr => 0 <= incr /\ sane_request (st i) (st j) incr /\
      (significant_units 2 (st j) \/ tame (asked_units (st i) (st j) incr) (st i) (st j) \/ 
       nothing_cut (st i) (st j) /\ (m = Release -> guesses_right_but_last (st i) (st j) incr))
  | _ => exact_call st c
  end.

(** What the calls mean on numbers, now with division: zero if the divisor is zero or the quotient
    has more than 81 integral digits, else the quotient truncated, keeping at least nine fractional digits
    if any are asked for and the quotient is below 10^72. *)
Definition meaning_with_division (x : nat -> Q) (c : call) (v : Q) : Prop :=
  match c with
  | Div i j _ incr =>
      ((x j == 0)%Q -> (v == 0)%Q) /\
      (~ (x j == 0)%Q -> (pow10 81 <= Qabs (x i / x j))%Q -> (v == 0)%Q) /\
      (~ (x j == 0)%Q -> (Qabs (x i / x j) < pow10 81)%Q ->
         exists f, 0 <= f <= 36 /\ (0 < incr -> (Qabs (x i / x j) < pow10 72)%Q -> 9 <= f) /\ (v == truncate_at (x i / x j) f)%Q)
  | _ => meaning x c v
  end.
Inductive on_numbers_with_division : (nat -> Q) -> list call -> (nat -> Q) -> Prop :=
| nd_nil x : on_numbers_with_division x nil x
| nd_cons x c cs v x' : meaning_with_division x c v -> on_numbers_with_division (write x (target c) v) cs x' -> on_numbers_with_division x (c :: cs) x'.
