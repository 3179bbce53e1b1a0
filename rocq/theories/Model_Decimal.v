(** * Model of the conversions and the hash of src/decimal.rs. *)
From Coq Require Import ZArith List Bool.
Import ListNotations.
From Verif Require Import Rust Tables Model_Base Model_Cmp Model_Round.
Open Scope Z_scope.

(** src/decimal.rs:142-148, [lsu_to_i64]; [-self.lsu[0] as i64] parses as
    [(-self.lsu[0]) as i64], the negation is an i32 operation. *)
Definition lsu_to_i64 (m : build) (d : fd) : outcome Z :=
  l0 <- get (fd_lsu d) 0 ;;
  l1 <- get (fd_lsu d) 1 ;;
  l2 <- get (fd_lsu d) 2 ;;
  a1 <- i64 m (l1 * UNIT) ;;
  a2 <- i64 m (l2 * UNIT) ;;
  a2 <- i64 m (a2 * UNIT) ;;
  if is_neg d then
    n0 <- i32 m (- l0) ;;
    t <- i64 m (n0 - a1) ;;
    i64 m (t - a2)
  else
    t <- i64 m (l0 + a1) ;;
    i64 m (t + a2).

(** src/decimal.rs:129-140, [as_i64] *)
Definition as_i64 (m : build) (self : fd) : outcome (result Z) :=
  b1 <- lt m self MIN_I64 ;;
  b2 <- (if b1 then Ret true else gt m self MAX_I64) ;;
  if b2 then Ret (Err ExceedsConversionTargetRange)
  else
    fu <- frac_units m self ;;
    if fu >? 0 then
      target <- round_to m self zero 0 ;;
      v <- lsu_to_i64 m target ;; Ret (Ok v)
    else
      v <- lsu_to_i64 m self ;; Ret (Ok v).

(** src/decimal.rs:163-165, [lsu_to_u64]; [x as u64] of an i32 sign-extends. *)
Definition lsu_to_u64 (m : build) (d : fd) : outcome Z :=
  l0 <- get (fd_lsu d) 0 ;;
  l1 <- get (fd_lsu d) 1 ;;
  l2 <- get (fd_lsu d) 2 ;;
  a1 <- u64 m (as_usize l1 * UNIT) ;;
  a2 <- u64 m (as_usize l2 * UNIT) ;;
  a2 <- u64 m (a2 * UNIT) ;;
  t <- u64 m (as_usize l0 + a1) ;;
  u64 m (t + a2).

(** src/decimal.rs:150-161, [as_u64] *)
Definition as_u64 (m : build) (self : fd) : outcome (result Z) :=
  b <- (if is_neg self then Ret true else gt m self MAX_U64) ;;
  if b then Ret (Err ExceedsConversionTargetRange)
  else
    fu <- frac_units m self ;;
    if fu >? 0 then
      target <- round_to m self zero 0 ;;
      v <- lsu_to_u64 m target ;; Ret (Ok v)
    else
      v <- lsu_to_u64 m self ;; Ret (Ok v).

(** src/decimal.rs:208-214, the loop of [From<u64>]; returns the units and
    the final [i].  The fuel bounds the number of iterations ([src] is
    divided by 10^9 each time); running out is [PFuel]. *)
Fixpoint from_u64_loop (m : build) (fuel : nat) (src : Z) (l : list Z) (i : Z)
  : outcome (list Z * Z) :=
  match fuel with
  | O => Panic PFuel
  | S fuel' =>
      if src =? 0 then Ret (l, i)
      else
        let q := src / UNIT in
        p <- u64 m (q * UNIT) ;;
        r <- u64 m (src - p) ;;
        l <- set l i (as_i32 r) ;;
        from_u64_loop m fuel' q l (i + 1)
  end.

(** src/decimal.rs:204-218, [From<u64>] *)
Definition from_u64 (m : build) (src : Z) : outcome fd :=
  '(l, i) <- from_u64_loop m 10 src (fd_lsu zero) 0 ;;
  Ret (mkfd (as_i8 (i * DIGITS_PER_UNIT)) (fd_frac zero) l).

(** src/decimal.rs:189-202, [From<i64>] *)
Definition from_i64 (m : build) (src : Z) : outcome fd :=
  if src =? -9223372036854775808 then Ret MIN_I64
  else if src <? 0 then
    n <- i64 m (- src) ;;
    d <- from_u64 m (as_usize n) ;;
    Ret (set_neg d)
  else from_u64 m (as_usize src).

(** What [Hash::hash] feeds to the hasher: a sequence of [write_u8] and
    [write_u32] calls.  The hasher itself is the caller's. *)
Inductive hash_write := WriteU8 (v : Z) | WriteU32 (v : Z).

(** src/decimal.rs:172-187, [Hash::hash] *)
Definition hash (m : build) (self : fd) : outcome (list hash_write) :=
  iu <- intg_units m self ;;
  fu <- frac_units m self ;;
  us <- slice (fd_lsu self) 0 (iu + fu) ;;
  Ret (WriteU8 (if is_neg self then 1 else 0)
       :: WriteU8 (as_u8 iu) :: WriteU8 (as_u8 fu)
       :: map (fun v => WriteU32 (as_u32 v)) us).
