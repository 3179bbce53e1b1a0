(** * Specification of invoices every line of which is rounded. *)
From Coq Require Import ZArith List QArith Qabs.
From Verif Require Import Rust Model_Base Spec Spec_History Spec_Machine Spec_Ledger.
Open Scope Z_scope.

(** For every line, given by two strings, the product is rounded to [f] fractional
    digits and then added to the total, which is variable 3. *)
Definition receipt (f : Z) (lines : list (numeral * numeral)) : list call :=
  flat_map (fun '(p, q) => Parse 0 (numeral_bytes p) true :: Parse 1 (numeral_bytes q) true ::
                           Mul 0 1 2 :: RoundTo 2 5 f :: Add 3 5 4 :: Copy 4 3 :: nil) lines.
Definition receipt_total (f : Z) (lines : list (numeral * numeral)) : Q :=
  fold_right (fun '(p, q) s => (round_at (numeral_value p * numeral_value q) f + s)%Q) 0%Q lines.
