(** * Model of the text of errors (src/error.rs). *)
From Coq Require Import ZArith List Ascii String.
From Verif Require Import Model_Base.
Import ListNotations.
Open Scope Z_scope.

(** The bytes of an ASCII literal. *)
Definition literal (s : string) : list Z := map (fun c => Z.of_nat (nat_of_ascii c)) (list_ascii_of_string s).

(** src/error.rs:5-15: the [Display] implementation that [#[derive(Error)]] of
    thiserror generates from the [#[error("...")]] attributes; the literals have
    no interpolated fields, so [to_string] is the literal itself (this reading
    of the derive macro is trusted). *)
Definition error_message (e : error) : list Z :=
  match e with
  | ConversionSyntax => literal "Decimal conversion syntax error"
  | DivisionByZero => literal "Decimal division by zero"
  | Overflow => literal "Decimal overflow"
  | ExceedsConversionTargetRange => literal "Exceeds range of conversion target"
  end.
