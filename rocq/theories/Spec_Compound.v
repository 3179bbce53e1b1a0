(** * Specification of repeated multiplication and rounding. *)
From Coq Require Import ZArith List QArith Qabs.
From Verif Require Import Rust Model_Base Model_Round Model_Arith Model_Serde Spec.
Open Scope Z_scope.

(** One period: read the balance, multiply by the rate, round to [f] places, print. *)
Definition period (m : build) (rate : fd) (f : Z) (balance : list Z) : outcome (result (list Z)) :=
  b <- from_str m balance ;;
  match b with
  | Err e => Ret (Err e)
  | Ok b => '(rs, p) <- mul_to m b rate zero ;;
      match rs with
      | Err e => Ret (Err e)
      | Ok _ => r <- round_to m p zero f ;; s <- to_string m r (-1) ;; Ret (Ok s)
      end
  end.
Fixpoint compound (m : build) (rate : fd) (f : Z) (k : nat) (balance : list Z) : outcome (result (list Z)) :=
  match k with
  | O => Ret (Ok balance)
  | S k => r <- period m rate f balance ;;
      match r with Err e => Ret (Err e) | Ok s => compound m rate f k s end
  end.

(** The same keeping the balance as a decimal, never printing it in between. *)
Fixpoint compound_in_place (m : build) (rate : fd) (f : Z) (k : nat) (b : fd) : outcome (result fd) :=
  match k with
  | O => Ret (Ok b)
  | S k => '(rs, p) <- mul_to m b rate zero ;;
      match rs with Err e => Ret (Err e) | Ok _ => r <- round_to m p zero f ;; compound_in_place m rate f k r end
  end.

(** On paper. *)
Fixpoint growth (rate : Q) (f : Z) (k : nat) (q : Q) : Q :=
  match k with O => q | S k => growth rate f k (round_at (q * rate) f) end.
