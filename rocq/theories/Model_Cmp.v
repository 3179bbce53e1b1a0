(** * Model of src/cmp.rs. *)
From Coq Require Import ZArith List Bool.
Import ListNotations.
From Verif Require Import Rust Tables Model_Base.
Open Scope Z_scope.

(** The loops of src/cmp.rs:60-67, 68-75, 89-95 and 96-101 have the same
    shape: walk down from index [i] for [n] steps, stop at the first unit
    that is positive.  [n] is the number of iterations the loop condition
    allows.  Returns whether a positive unit was met. *)
Fixpoint scan_pos (n : nat) (l : list Z) (i : Z) : outcome bool :=
  match n with
  | O => Ret false
  | S n' =>
      v <- get l i ;;
      if v >? 0 then Ret true else scan_pos n' l (i - 1)
  end.

(** src/cmp.rs:77-88, the loop over the common positions; [None] means the
    loop ran out of positions without deciding. *)
Fixpoint cmp_common (n : nat) (l r : list Z) (i j : Z) : outcome (option comparison) :=
  match n with
  | O => Ret None
  | S n' =>
      lv <- get l i ;;
      rv <- get r j ;;
      if lv >? rv then Ret (Some Gt)
      else if lv <? rv then Ret (Some Lt)
      else cmp_common n' l r (i - 1) (j - 1)
  end.

(** src/cmp.rs:50-104, [cmp_abs_lsu].  The isize arithmetic on indices is
    exact (all values are below 64).  The number of iterations of the loop at
    line 60 is [liu - riu] (both are unit counts, hence not negative), of the
    loop at line 68 [riu - liu], of the loop at line 77 the smaller of
    [i + 1] and [j + 1], and of the last two [i + 1] and [j + 1]. *)
Definition cmp_abs_lsu (liu lfu : Z) (llsu : list Z) (riu rfu : Z) (rlsu : list Z)
  : outcome comparison :=
  let i := liu + lfu - 1 in
  let j := riu + rfu - 1 in
  let nl := Z.to_nat (liu - riu) in
  let nr := Z.to_nat (riu - liu) in
  gl <- scan_pos nl llsu i ;;
  if gl then Ret Gt else
  let i := i - Z.of_nat nl in
  gr <- scan_pos nr rlsu j ;;
  if gr then Ret Lt else
  let j := j - Z.of_nat nr in
  let n := Z.to_nat (Z.min (i + 1) (j + 1)) in
  c <- cmp_common n llsu rlsu i j ;;
  match c with
  | Some c => Ret c
  | None =>
      let i := i - Z.of_nat n in
      let j := j - Z.of_nat n in
      gi <- scan_pos (Z.to_nat (i + 1)) llsu i ;;
      if gi then Ret Gt else
      gj <- scan_pos (Z.to_nat (j + 1)) rlsu j ;;
      if gj then Ret Lt else Ret Eq
  end.

(** src/cmp.rs:38-48, [cmp_abs] *)
Definition cmp_abs (m : build) (lhs rhs : fd) : outcome comparison :=
  liu <- intg_units m lhs ;;
  lfu <- frac_units m lhs ;;
  riu <- intg_units m rhs ;;
  rfu <- frac_units m rhs ;;
  cmp_abs_lsu liu lfu (fd_lsu lhs) riu rfu (fd_lsu rhs).

(** src/cmp.rs:20-36, [Ord::cmp] *)
Definition cmp (m : build) (a b : fd) : outcome comparison :=
  let lneg := is_neg a in
  let rneg := is_neg b in
  if lneg then
    if rneg then cmp_abs m b a else Ret Lt
  else if rneg then Ret Gt
  else cmp_abs m a b.

(** src/cmp.rs:4-9, [PartialEq::eq] *)
Definition eq (m : build) (a b : fd) : outcome bool :=
  c <- cmp m a b ;; Ret (match c with Eq => true | _ => false end).

(** src/cmp.rs:13-18, [partial_cmp] is [Some(self.cmp(other))]; [<] and [>]
    are the provided methods of [PartialOrd]. *)
Definition lt (m : build) (a b : fd) : outcome bool :=
  c <- cmp m a b ;; Ret (match c with Lt => true | _ => false end).
Definition gt (m : build) (a b : fd) : outcome bool :=
  c <- cmp m a b ;; Ret (match c with Gt => true | _ => false end).
