(** * Specification: quotients whose leading digits are not in danger. *)
From Coq Require Import ZArith QArith Qabs Qround.
From Verif Require Import Rust Model_Base Spec Spec_Div.
Open Scope Z_scope.

(** The quotient [a / b], to the group [K], is tame after its leading group:
    - no group but the leading one is within ten of 10^9;
    - the digits of [b] end at most one group after those of [a] (the more so
      the larger the quotient), or every group but the two leading ones is at
      least 36, one group further.
    If [K] is the leading group, or comes before it, this asks nothing of the
    first and (with the digits of [b] as above or not) nothing of the second. *)
Definition tame_tail (K : Z) (a b : fd) : Prop :=
  let q := (value a / value b)%Q in
  (forall k, k <= K -> (1 <= Qabs q * pow10 (9 * (k - 1)))%Q -> group q k <= 999999989) /\
  ((exists E y, 0 <= E /\ (E = 0 \/ (pow10 (9 * (E - 1)) <= Qabs q)%Q) /\ (value b * pow10 (9 * (fu a + E + 1)) == inject_Z y)%Q) \/
   (forall k, k <= K + 1 -> (1 <= Qabs q * pow10 (9 * (k - 2)))%Q -> 36 <= group q k)).
