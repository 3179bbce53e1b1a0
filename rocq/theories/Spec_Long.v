(** * Specification: how a release build reads numerals of 128 digits and more.
    The counts of digits are kept in signed bytes, which wrap around. *)
From Coq Require Import ZArith List.
From Verif Require Import Spec.
Open Scope Z_scope.

Definition signed_byte (z : Z) : Z := (z + 128) mod 256 - 128.

(** The digits after the point, and those before it, once the exponent is applied. *)
Definition read_frac (n : numeral) : Z := signed_byte (zlength (n_frac n) - numeral_exp n).
Definition read_int (n : numeral) : Z := (zlength (n_int n) + numeral_exp n) mod 256.
(** All digits, when there are some after the point. *)
Definition read_total (n : numeral) : Z := Z.max (read_frac n) (signed_byte (zlength (n_int n ++ n_frac n))).

(** Numerals with an exponent that the parser accepts, and of 128 digits or more. *)
Definition exponent_ok (n : numeral) : Prop := -30 <= numeral_exp n <= 65.
Definition long (n : numeral) : Prop := exponent_ok n /\ 128 <= zlength (n_int n ++ n_frac n).
