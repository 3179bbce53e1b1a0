(** * The methods that [Ord] and [PartialOrd] provide for [FixedDecimal].
    src/cmp.rs implements [eq], [partial_cmp] and [cmp]; every other operator
    or method of the comparison traits is the provided one of the standard
    library, a fixed function of those three.  The bodies below are those of
    the standard library (core::cmp), instantiated at src/cmp.rs:4-36. *)
From Coq Require Import ZArith List Bool.
From Verif Require Import Rust Model_Base Model_Cmp.
Open Scope Z_scope.

(** src/cmp.rs:15-17, [partial_cmp]: [Some(self.cmp(other))] *)
Definition partial_cmp (m : build) (a b : fd) : outcome (option comparison) :=
  c <- cmp m a b ;; Ret (Some c).

(** [PartialEq::ne] (operator [!=]): [!self.eq(other)], over src/cmp.rs:6-8 *)
Definition ne (m : build) (a b : fd) : outcome bool :=
  e <- eq m a b ;; Ret (negb e).

(** [PartialOrd::le] (operator [<=]): [partial_cmp] is [Some(Less | Equal)],
    over src/cmp.rs:15-17 *)
Definition le (m : build) (a b : fd) : outcome bool :=
  o <- partial_cmp m a b ;;
  Ret (match o with Some Lt | Some Eq => true | _ => false end).

(** [PartialOrd::ge] (operator [>=]): [partial_cmp] is [Some(Greater | Equal)],
    over src/cmp.rs:15-17 *)
Definition ge (m : build) (a b : fd) : outcome bool :=
  o <- partial_cmp m a b ;;
  Ret (match o with Some Gt | Some Eq => true | _ => false end).

(** [Ord::max(self, other)]: [match self.cmp(&other) { Less | Equal => other,
    Greater => self }], over src/cmp.rs:22-35 *)
Definition ord_max (m : build) (a b : fd) : outcome fd :=
  c <- cmp m a b ;; Ret (match c with Gt => a | _ => b end).

(** [Ord::min(self, other)]: [match self.cmp(&other) { Less | Equal => self,
    Greater => other }], over src/cmp.rs:22-35 *)
Definition ord_min (m : build) (a b : fd) : outcome fd :=
  c <- cmp m a b ;; Ret (match c with Gt => b | _ => a end).

(** [Ord::clamp(self, min, max)]: [assert!(min <= max); if self < min { min }
    else if self > max { max } else { self }], over src/cmp.rs:15-17.  The
    assertion is checked in both builds. *)
Definition clamp (m : build) (a lo hi : fd) : outcome fd :=
  ok <- le m lo hi ;;
  if ok then
    below <- lt m a lo ;;
    if (below : bool) then Ret lo else
    above <- gt m a hi ;;
    if (above : bool) then Ret hi else Ret a
  else Panic PAssert.
