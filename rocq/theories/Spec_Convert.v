(** * Specification of conversion between units and back. *)
From Coq Require Import ZArith List QArith Qabs.
From Verif Require Import Rust Model_Base Model_Round Model_Arith Model_Serde Spec.
Open Scope Z_scope.

(** Read an amount and a rate, multiply (divide), round to [f] places, print. *)
Definition convert (m : build) (rate : list Z) (f : Z) (amount : list Z) : outcome (result (list Z)) :=
  a <- from_str m amount ;; b <- from_str m rate ;;
  match a, b with
  | Ok a, Ok b => '(rs, p) <- mul_to m a b zero ;;
      match rs with
      | Err e => Ret (Err e)
      | Ok _ => r <- round_to m p zero f ;; s <- to_string m r (-1) ;; Ret (Ok s)
      end
  | Err e, _ | _, Err e => Ret (Err e)
  end.
Definition convert_back (m : build) (rate : list Z) (f : Z) (amount : list Z) : outcome (result (list Z)) :=
  a <- from_str m amount ;; b <- from_str m rate ;;
  match a, b with
  | Ok a, Ok b => '(rs, q) <- div_to m a b zero 4 ;;
      match rs with
      | Err e => Ret (Err e)
      | Ok _ => r <- round_to m q zero f ;; s <- to_string m r (-1) ;; Ret (Ok s)
      end
  | Err e, _ | _, Err e => Ret (Err e)
  end.

(** A numeral without exponent of at most [i] integral and [f] fractional digits. *)
Definition amount_ok (i f : Z) (n : numeral) : Prop :=
  numeral_ok n /\ n_exp n = None /\ zlength (n_int n) <= i /\ zlength (n_frac n) <= f.
(** A rate: at most ten digits. In a debug build only whole
    rates of at most nine digits, and amounts with an integral digit. *)
Definition rate_ok (m : build) (t : numeral) : Prop :=
  numeral_ok t /\ n_exp t = None /\ zlength (n_int t) + zlength (n_frac t) <= 10 /\ ~ (numeral_value t == 0)%Q /\
  (m = Debug -> n_frac t = nil /\ zlength (n_int t) <= 9).
