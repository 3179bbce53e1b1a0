(** * The number of fractional digits a division takes itself to be asked for. *)
From Coq Require Import ZArith Bool.
From Verif Require Import Rust Model_Base Spec.
Open Scope Z_scope.

(** A [usize] read as an [isize]. *)
Definition as_signed (n : Z) : Z := if n <? 9223372036854775808 then n else n - 18446744073709551616.

(** The fractional digits of both operands, counted in whole groups or with the extra
    digits asked for, whichever is more - modulo 256. (A request of 2^63 or more counts
    as a negative one, that is as none; only the very lowest of these wrap around.) *)
Definition digits_taken (a b : fd) (incr : Z) : Z :=
  let groups := 9 * (fu a + fu b) in
  let wanted := frac_digits a + frac_digits b + as_signed incr in
  (if (wanted <? groups) && (groups - 9223372036854775808 <=? wanted) then groups else wanted) mod 256.

(** The groups of nine fractional digits that makes. *)
Definition groups_taken (a b : fd) (incr : Z) : Z :=
  if digits_taken a b incr <=? 119 then units_for (digits_taken a b incr) else 0.
