(** * Specification: remainders for which the code has no room. *)
From Coq Require Import ZArith QArith Qabs.
From Verif Require Import Rust Model_Base Spec.
Open Scope Z_scope.

(** A dividend of at least 10^72 and a divisor of more than 72 fractional digits
    (nine groups), of at least 10^-72. A debug build has no room for any of them,
    a release build none for those whose dividend, read from its leading group of
    nine digits on, is not below the divisor, read from its leading group on. *)
Definition too_long (m : build) (a b : fd) : Prop :=
  fu b = 9 /\ (pow10 72 <= Qabs (value a))%Q /\ (pow10 (-72) <= Qabs (value b))%Q /\
  (m = Debug \/ exists k, (1 <= Qabs (value b) * pow10 (9 * k) < pow10 9)%Q /\ (Qabs (value b) * pow10 (9 * k) <= Qabs (value a) * pow10 (-72))%Q).
