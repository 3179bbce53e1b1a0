(** * Specification of splitting a sum into equal parts. *)
From Coq Require Import ZArith List QArith Qabs.
From Verif Require Import Rust Model_Base Spec Spec_History Spec_Ledger.
Open Scope Z_scope.

(** [n] people share the sum [t]: variable 3 is what each of them pays, rounded to [f] places, variable
    4 what all pay together, variable 5 what is left of the sum. *)
Definition split (t : numeral) (n f : Z) : list call :=
  Parse 0 (numeral_bytes t) true :: FromU64 1 n :: Div 0 1 2 4 :: RoundTo 2 3 f :: Mul 1 3 4 :: Sub 0 4 5 :: nil.

(** At most 36 integral and 9 fractional digits. *)
Definition bill_ok (t : numeral) : Prop :=
  numeral_ok t /\ -30 <= numeral_exp t <= 65 /\ numeral_frac t <= 9 /\ numeral_digits t - numeral_frac t <= 36.
