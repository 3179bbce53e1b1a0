(** * Specification of averages of strings. *)
From Coq Require Import ZArith List QArith Qabs.
From Verif Require Import Rust Model_Base Spec Spec_History Spec_Ledger.
Open Scope Z_scope.

(** The average of any number of strings, rounded to [f] places: variable 0 takes the inputs,
    1 the running total, 3 the count, 4 the quotient (with four more fractional digits asked for, as [/] does), 5 the result. *)
Definition sum_of (ns : list numeral) : list call :=
  flat_map (fun n => Parse 0 (numeral_bytes n) true :: Add 1 0 2 :: Copy 2 1 :: nil) ns.
Definition average_of (ns : list numeral) (f : Z) : list call :=
  (sum_of ns ++ FromU64 3 (Z.of_nat (length ns)) :: Div 1 3 4 4 :: RoundTo 4 5 f :: nil)%list.

Definition numeral_sum (ns : list numeral) : Q := fold_right (fun n s => (numeral_value n + s)%Q) 0%Q ns.
Definition numeral_mean (ns : list numeral) : Q := (numeral_sum ns / inject_Z (Z.of_nat (length ns)))%Q.
Definition absolute_sum (ns : list numeral) : Q := fold_right (fun n s => (Qabs (numeral_value n) + s)%Q) 0%Q ns.

(** At most 36 integral and 27 fractional digits. *)
Definition input_ok (n : numeral) : Prop :=
  numeral_ok n /\ -30 <= numeral_exp n <= 65 /\ numeral_frac n <= 27 /\ numeral_digits n - numeral_frac n <= 36.
