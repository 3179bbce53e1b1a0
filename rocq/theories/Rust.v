(** * The fragment of Rust's run-time semantics that fxd-rs uses.

    This file models the language, not the repository: machine integers with
    the overflow behaviour of the two cargo profiles, panics, array indexing,
    slices.  Every definition of the repository itself is in the [Model_*]
    files and carries a citation of /repo. *)
From Coq Require Import ZArith List Bool.
Import ListNotations.
Open Scope Z_scope.

(** The two cargo profiles.  Cargo.toml (lines 13-14) has an empty
    [profile.release], so the defaults apply: [Debug] has overflow checks and
    [debug_assert!] on, [Release] wraps silently and skips [debug_assert!]. *)
Inductive build := Debug | Release.

(** Why an execution stopped.  [PFuel] is not a Rust panic: it marks a loop
    of the model whose fuel ran out; theorems about returning executions
    exclude it by saying [Ret]. *)
Inductive panic :=
| POverflow     (* attempt to add/subtract/multiply/negate with overflow *)
| PIndex        (* index or slice out of bounds, slice length mismatch *)
| PDivZero      (* attempt to divide by zero *)
| PAssert       (* debug_assert! failed *)
| PUnreachable  (* unreachable! *)
| POperator     (* panic! in an operator impl (arith.rs:115,132,149,166,183) *)
| PFuel.

Inductive outcome (A : Type) :=
| Ret (a : A)
| Panic (p : panic).
Arguments Ret {A} a.
Arguments Panic {A} p.

Definition bind {A B} (o : outcome A) (k : A -> outcome B) : outcome B :=
  match o with Ret a => k a | Panic p => Panic p end.

Notation "x <- e ;; k" := (bind e (fun x => k))
  (at level 61, e at next level, right associativity).
Notation "' p <- e ;; k" := (bind e (fun p => k))
  (at level 61, p pattern, e at next level, right associativity).

(** ** Machine integers *)

(** The result of an arithmetic operation whose mathematical value is [z] on a
    type with values [lo..hi]: in range it is [z]; otherwise it panics in a
    debug build and wraps in a release build. *)
Definition chk (m : build) (lo hi z : Z) : outcome Z :=
  if (lo <=? z) && (z <=? hi) then Ret z
  else match m with
       | Debug => Panic POverflow
       | Release => Ret (lo + (z - lo) mod (hi - lo + 1))
       end.

Definition i8 (m : build) (z : Z) : outcome Z := chk m (-128) 127 z.
Definition i32 (m : build) (z : Z) : outcome Z := chk m (-2147483648) 2147483647 z.
Definition i64 (m : build) (z : Z) : outcome Z :=
  chk m (-9223372036854775808) 9223372036854775807 z.
(** [isize]/[usize] on a 64-bit target. *)
Definition isize (m : build) (z : Z) : outcome Z := i64 m z.
Definition u64 (m : build) (z : Z) : outcome Z := chk m 0 18446744073709551615 z.
Definition usize (m : build) (z : Z) : outcome Z := u64 m z.

(** [as] casts: always wrapping, never panicking. *)
Definition as_i8 (z : Z) : Z := -128 + (z + 128) mod 256.
Definition as_u8 (z : Z) : Z := z mod 256.
Definition as_i32 (z : Z) : Z := -2147483648 + (z + 2147483648) mod 4294967296.
Definition as_u32 (z : Z) : Z := z mod 4294967296.
Definition as_usize (z : Z) : Z := z mod 18446744073709551616.
Definition as_isize (z : Z) : Z :=
  -9223372036854775808 + (z + 9223372036854775808) mod 18446744073709551616.

(** Rust's [/] and [%] truncate towards zero and panic on a zero divisor. *)
Definition i64_div (m : build) (a b : Z) : outcome Z :=
  if b =? 0 then Panic PDivZero else i64 m (Z.quot a b).
Definition i32_div (m : build) (a b : Z) : outcome Z :=
  if b =? 0 then Panic PDivZero else i32 m (Z.quot a b).
Definition i32_rem (m : build) (a b : Z) : outcome Z :=
  if b =? 0 then Panic PDivZero else i32 m (Z.rem a b).

Definition debug_assert (m : build) (b : bool) : outcome unit :=
  match m with
  | Debug => if b then Ret tt else Panic PAssert
  | Release => Ret tt
  end.

(** ** Arrays, slices and vectors of integers *)

Definition zlen (l : list Z) : Z := Z.of_nat (length l).

Fixpoint upd (n : nat) (v : Z) (l : list Z) : list Z :=
  match l, n with
  | [], _ => []
  | _ :: t, O => v :: t
  | x :: t, S n' => x :: upd n' v t
  end.

(** [l[i]].  A negative [i] stands for the huge [usize] that [i as usize]
    yields, which is out of bounds of every array. *)
Definition get (l : list Z) (i : Z) : outcome Z :=
  if (0 <=? i) && (i <? zlen l) then Ret (nth (Z.to_nat i) l 0) else Panic PIndex.

(** [l[i] = v] *)
Definition set (l : list Z) (i v : Z) : outcome (list Z) :=
  if (0 <=? i) && (i <? zlen l) then Ret (upd (Z.to_nat i) v l) else Panic PIndex.

(** [&l[a..b]] *)
Definition slice (l : list Z) (a b : Z) : outcome (list Z) :=
  if (0 <=? a) && (a <=? b) && (b <=? zlen l)
  then Ret (firstn (Z.to_nat (b - a)) (skipn (Z.to_nat a) l)) else Panic PIndex.

(** [l] with the elements from index [a] on replaced by those of [src]. *)
Definition blit (l : list Z) (a : Z) (src : list Z) : list Z :=
  firstn (Z.to_nat a) l ++ src ++ skipn (Z.to_nat a + length src) l.

(** [l[a..b].copy_from_slice(src)] *)
Definition write_slice (l : list Z) (a b : Z) (src : list Z) : outcome (list Z) :=
  if (0 <=? a) && (a <=? b) && (b <=? zlen l) && (b - a =? zlen src)
  then Ret (blit l a src) else Panic PIndex.

(** [l[a..b].fill(v)] (also written as a loop over [&mut l[a..b]]) *)
Definition fill (l : list Z) (a b v : Z) : outcome (list Z) :=
  if (0 <=? a) && (a <=? b) && (b <=? zlen l)
  then Ret (blit l a (repeat v (Z.to_nat (b - a)))) else Panic PIndex.

(** [l.copy_within(a..b, dest)] *)
Definition copy_within (l : list Z) (a b dest : Z) : outcome (list Z) :=
  if (0 <=? a) && (a <=? b) && (b <=? zlen l) && (0 <=? dest) && (dest <=? zlen l - (b - a))
  then Ret (blit l dest (firstn (Z.to_nat (b - a)) (skipn (Z.to_nat a) l)))
  else Panic PIndex.
