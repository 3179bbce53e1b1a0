(** * Specification of compounding in place with division by one. *)
From Coq Require Import ZArith List QArith Qabs.
From Verif Require Import Rust Model_Base Model_Round Model_Arith Spec.
Open Scope Z_scope.

(** Every period multiplies the rate by the balance, rounds to [f] places and divides by one, without
    asking for more digits. Nothing is printed. *)
Fixpoint compound_tidy (m : build) (rate : fd) (f : Z) (k : nat) (b : fd) : outcome (result fd) :=
  match k with
  | O => Ret (Ok b)
  | S k => '(rs, p) <- mul_to m rate b zero ;;
      match rs with
      | Err e => Ret (Err e)
      | Ok _ => r <- round_to m p zero f ;; '(rs, t) <- div_to m r one zero 0 ;;
          match rs with Err e => Ret (Err e) | Ok _ => compound_tidy m rate f k t end
      end
  end.
