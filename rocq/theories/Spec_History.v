(** * Histories: sequences of calls on any number of variables. *)
From Coq Require Import ZArith List Bool QArith Qabs.
From Verif Require Import Rust Model_Base Model_Round Model_Decimal Model_Arith Model_Serde Spec Spec_Div.
Open Scope Z_scope.

(** The calls of the interface that write a decimal. Variables are numbered;
    [k] is always the variable written. *)
Inductive call : Type :=
| Parse (k : nat) (bs : list Z) (reset : bool)   (* v[k].from_bytes_str(bs, reset) *)
| FromI64 (k : nat) (n : Z)                      (* v[k] = FixedDecimal::from(n as i64) *)
| FromU64 (k : nat) (n : Z)
| Zero (k : nat) | One (k : nat)                 (* v[k] = FixedDecimal::zero() or v[k].set_zero() *)
| Copy (i k : nat)                               (* v[k] = v[i].clone() *)
| SetNeg (k : nat) | SetPos (k : nat)
| Add (i j k : nat) | Sub (i j k : nat)          (* v[i].add_to(&v[j], &mut v[k]) *)
| Mul (i j k : nat) | Rem (i j k : nat)
| Div (i j k : nat) (incr : Z)
| RoundTo (i k : nat) (f : Z)                    (* v[i].round_to(&mut v[k], f) *)
| Round (k : nat) (f : Z).                       (* v[k].round(f) *)

Definition state : Type := nat -> fd.
Definition write {A} (st : nat -> A) (k : nat) (d : A) : nat -> A := fun i => if Nat.eqb i k then d else st i.

Definition target (c : call) : nat :=
  match c with
  | Parse k _ _ | FromI64 k _ | FromU64 k _ | Zero k | One k | Copy _ k | SetNeg k | SetPos k
  | Add _ _ k | Sub _ _ k | Mul _ _ k | Rem _ _ k | Div _ _ k _ | RoundTo _ k _ | Round k _ => k
  end.

(** What the call returns and leaves in its target. *)
Definition perform (m : build) (st : state) (c : call) : outcome (result unit * fd) :=
  match c with
  | Parse k bs reset => from_bytes_str m (st k) bs reset
  | FromI64 _ n => d <- from_i64 m n ;; Ret (Ok tt, d)
  | FromU64 _ n => d <- from_u64 m n ;; Ret (Ok tt, d)
  | Zero k => Ret (Ok tt, set_zero (st k))
  | One k => Ret (Ok tt, set_one (st k))
  | Copy i _ => Ret (Ok tt, st i)
  | SetNeg k => Ret (Ok tt, set_neg (st k))
  | SetPos k => Ret (Ok tt, set_pos (st k))
  | Add i j k => add_to m (st i) (st j) (st k)
  | Sub i j k => sub_to m (st i) (st j) (st k)
  | Mul i j k => mul_to m (st i) (st j) (st k)
  | Rem i j k => rem_to m (st i) (st j) (st k)
  | Div i j k incr => div_to m (st i) (st j) (st k) incr
  | RoundTo i k f => d <- round_to m (st i) (st k) f ;; Ret (Ok tt, d)
  | Round k f => d <- round m (st k) f ;; Ret (Ok tt, d)
  end.

(** A history: every call is [allowed] and none panics; calls that return an
    error are part of it. *)
Inductive history (allowed : state -> call -> Prop) (m : build) : state -> list call -> state -> Prop :=
| h_nil st : history allowed m st nil st
| h_cons st c cs rs d st' : allowed st c -> perform m st c = Ret (rs, d) ->
    history allowed m (write st (target c) d) cs st' -> history allowed m st (c :: cs) st'.

(** Strings of at most 127 mantissa digits; arguments of the Rust types;
    rounding to at most 127 fractional digits; divisors for which long
    division guesses right. No division, no in-place rounding, no parsing onto old contents. *)
Definition simple_call (st : state) (c : call) : Prop :=
  match c with
  | Parse _ bs reset => mantissa_digits bs <= 127 /\ reset = true
  | FromI64 _ n => -9223372036854775808 <= n <= 9223372036854775807
  | FromU64 _ n => 0 <= n <= 18446744073709551615
  | RoundTo _ _ f => -9223372036854775807 < f <= 127
  | Rem i j _ => guesses_right (scaled (st i)) (scaled (st j))
  | Div _ _ _ _ | Round _ _ => False
  | _ => True
  end.

(** The same and: division by divisors of two significant units or with a tame quotient, with the
    leading digit of the dividend at least as far up in its unit; in-place rounding
    that does not add units. *)
Definition careful_call (st : state) (c : call) : Prop :=
  match c with
  | Div i j _ incr => (value (st i) == 0)%Q \/ (value (st j) == 0)%Q \/
      ((significant_units 2 (st j) \/ tame (asked_units (st i) (st j) incr) (st i) (st j)) /\ 0 <= incr /\ sane_request (st i) (st j) incr /\
       exists p q, leading_digit (st i) p /\ leading_digit (st j) q /\ q mod 9 <= p mod 9)
  | Round k f => -9223372036854775807 < f <= 127 /\ (f < frac_digits (st k) \/ units_for f = fu (st k))
  | _ => simple_call st c
  end.

(** Calls that keep decimals well-formed (but not regular). In a debug build:
    every call whose arguments are of the Rust types, with rounding positions of at most 127. In a release
    build the divisions of [careful_call] without
    the condition on the leading digits. Parsing (every string, also onto old contents), products, remainders, sums, differences, in-place rounding: all. *)
Definition sound_call (m : build) (st : state) (c : call) : Prop :=
  match c with
  | FromI64 _ n => -9223372036854775808 <= n <= 9223372036854775807
  | FromU64 _ n => 0 <= n <= 18446744073709551615
  | RoundTo _ _ f | Round _ f => -9223372036854775807 < f <= 127
  | Div i j _ incr => m = Release -> (value (st i) == 0)%Q \/ (value (st j) == 0)%Q \/
      ((significant_units 2 (st j) \/ tame (asked_units (st i) (st j) incr) (st i) (st j)) /\ 0 <= incr /\ sane_request (st i) (st j) incr)
  | _ => True
  end.

(** ** The same history on numbers *)

(** Is [v] the number the call leaves in its target, if the variables hold
    the numbers [x]? Errors leave zero. *)
Definition meaning (x : nat -> Q) (c : call) (v : Q) : Prop :=
  match c with
  | Parse _ bs _ => (exists n, numeral_ok n /\ within_limits n /\ bs = numeral_bytes n /\ (v == numeral_value n)%Q) \/
                    ((forall n, numeral_ok n -> within_limits n -> bs <> numeral_bytes n) /\ (v == 0)%Q)
  | FromI64 _ n | FromU64 _ n => (v == inject_Z n)%Q
  | Zero _ => (v == 0)%Q
  | One _ => (v == 1)%Q
  | Copy i _ => (v == x i)%Q
  | SetNeg k => (v == - Qabs (x k))%Q
  | SetPos k => (v == Qabs (x k))%Q
  | Add i j _ => (v == x i + x j)%Q
  | Sub i j _ => (v == x i - x j)%Q
  | Mul i j _ => (v == x i * x j)%Q
  | Rem i j _ => (~ (x j == 0) -> v == x i - x j * inject_Z (truncate (x i / x j)))%Q /\ ((x j == 0)%Q -> (v == 0)%Q)
  | RoundTo i _ f => (v == round_at (x i) f)%Q
  | Round k f => (v == round_at (x k) f)%Q
  | Div _ _ _ _ => False
  end.

Inductive on_numbers : (nat -> Q) -> list call -> (nat -> Q) -> Prop :=
| n_nil x : on_numbers x nil x
| n_cons x c cs v x' : meaning x c v -> on_numbers (write x (target c) v) cs x' -> on_numbers x (c :: cs) x'.

(** The calls that compute exactly: products with room for all their digits,
    rounding to a number of fractional digits. *)
Definition exact_call (st : state) (c : call) : Prop :=
  match c with
  | Mul i j _ => product_fits (st i) (st j)
  | RoundTo _ _ f => 0 <= f <= 127
  | Round k f => 0 <= f <= 127 /\ (f < frac_digits (st k) \/ units_for f = fu (st k))
  | _ => simple_call st c
  end.
