(** * Specification: two calls that differ in the signs of operands. *)
From Coq Require Import ZArith QArith.
From Verif Require Import Rust Model_Base Model_Arith Spec.

(** The outcomes of two calls are the same but for the sign: both panic for the same
    reason, or both return the same error, or both succeed with the same
    declared digits, the same units, and values that are opposite numbers. *)
Definition opposite_outcomes (o1 o2 : outcome (result unit * fd)) : Prop :=
  match o1, o2 with
  | Ret (Ok _, d1), Ret (Ok _, d2) => int_digits d2 = int_digits d1 /\ frac_digits d2 = frac_digits d1 /\ fd_lsu d2 = fd_lsu d1 /\ (value d2 == - value d1)%Q
  | Ret (Err e1, _), Ret (Err e2, _) => e1 = e2
  | Panic p1, Panic p2 => p1 = p2
  | _, _ => False
  end.
(** The same with equal values. *)
Definition equal_outcomes (o1 o2 : outcome (result unit * fd)) : Prop :=
  match o1, o2 with
  | Ret (Ok _, d1), Ret (Ok _, d2) => int_digits d2 = int_digits d1 /\ frac_digits d2 = frac_digits d1 /\ fd_lsu d2 = fd_lsu d1 /\ (value d2 == value d1)%Q
  | Ret (Err e1, _), Ret (Err e2, _) => e1 = e2
  | Panic p1, Panic p2 => p1 = p2
  | _, _ => False
  end.
