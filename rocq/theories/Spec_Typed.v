(** * Specification of statically sized programs. *)
From Coq Require Import ZArith List QArith Qabs.
From Verif Require Import Rust Model_Base Spec Spec_History Spec_Ledger.
Open Scope Z_scope.

(** Every variable has a declared size: [I k] groups (at least one) of nine integral digits and
    [F k] groups of nine fractional digits, at most nine together. *)
Definition sizes_ok (I F : nat -> Z) : Prop := forall k, 1 <= I k /\ 0 <= F k /\ I k + F k <= 9.

(** The static rules: inputs fit the declared size; a sum has the size of the larger
    operand and at most seven groups; the sizes of the factors of a product add up, with at most
    four fractional groups; rounding may change the fractional groups. *)
Definition sized_call (I F : nat -> Z) (c : call) : Prop :=
  match c with
  | Parse k bs reset => reset = true /\ exists n, numeral_ok n /\ bs = numeral_bytes n /\ -30 <= numeral_exp n <= 65 /\ numeral_digits n <= 65 /\
      numeral_frac n <= 9 * F k /\ numeral_digits n - numeral_frac n <= 9 * I k
  | FromI64 k n => -9223372036854775808 <= n <= 9223372036854775807 /\ Z.abs n < 10 ^ (9 * I k)
  | FromU64 k n => 0 <= n <= 18446744073709551615 /\ n < 10 ^ (9 * I k)
  | Zero _ | One _ | SetNeg _ | SetPos _ => True
  | Copy i k => I i <= I k /\ F i <= F k
  | Add i j k | Sub i j k => Z.max (I i) (I j) <= I k /\ Z.max (F i) (F j) <= F k /\ Z.max (I i) (I j) + Z.max (F i) (F j) <= 7
  | Mul i j k => I i + I j <= I k /\ F i + F j <= F k /\ F i + F j <= 4
  | RoundTo i k f => I i <= I k /\ 0 <= f <= 9 * F k
  | Round _ _ | Rem _ _ _ | Div _ _ _ _ => False
  end.

(** The program on rational numbers: what is assigned to a variable is below the bound its
    size gives. In a debug build the first factor of a product is at least one, or one of the factors is zero. *)
Inductive sized_run (m : build) (I : nat -> Z) : (nat -> Q) -> list call -> (nat -> Q) -> Prop :=
| s_nil x : sized_run m I x nil x
| s_cons x c cs v x' : meaning x c v -> (Qabs v < pow10 (9 * I (target c)))%Q ->
    (forall i j k, c = Mul i j k -> m = Debug -> (x i == 0)%Q \/ (x j == 0)%Q \/ (1 <= Qabs (x i))%Q) ->
    sized_run m I (write x (target c) v) cs x' -> sized_run m I x (c :: cs) x'.
