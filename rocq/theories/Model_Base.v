(** * Model of src/utils.rs, src/error.rs and the data type of src/decimal.rs. *)
From Coq Require Import ZArith List Bool.
Import ListNotations.
From Verif Require Import Rust Tables.
Open Scope Z_scope.

(** src/error.rs:6-15, [enum Error]. *)
Inductive error :=
| ConversionSyntax
| DivisionByZero
| Overflow
| ExceedsConversionTargetRange.

(** src/error.rs:3, [type Result<T>]. *)
Inductive result (A : Type) :=
| Ok (a : A)
| Err (e : error).
Arguments Ok {A} a.
Arguments Err {A} e.

(** src/decimal.rs:5-11, the constants. *)
Definition MAX_UNITS : Z := 9.
Definition MAX_FRAC : Z := 30.
Definition MAX_DIGITS : Z := 65.
Definition DIGITS_PER_UNIT : Z := 9.
Definition UNIT : Z := 1000000000.
Definition HALF_UNIT : Z := UNIT / 2.
Definition MAX_FRAC_UNITS : Z := (MAX_FRAC + DIGITS_PER_UNIT - 1) / DIGITS_PER_UNIT.

(** src/decimal.rs:33-42, [struct FixedDecimal].  [fd_intg] and [fd_frac] hold
    the two's complement value of the i8 fields; [fd_lsu] is the array
    [[i32; MAX_UNITS]], least significant unit first (its length, 9, is part
    of the Rust type; here it is part of the well-formedness predicate). *)
Record fd := mkfd { fd_intg : Z; fd_frac : Z; fd_lsu : list Z }.

(** [[0; MAX_UNITS]] *)
Definition zero_units : list Z := repeat 0 9.

(** ** src/utils.rs *)

(** src/utils.rs:14-17, [div9]: a table look-up at [d as usize]; a negative
    i8 becomes a huge index. *)
Definition div9 (d : Z) : outcome Z := get DIV9_TABLE d.

(** src/utils.rs:9-12, [get_units]: [d + 8] is an i8 addition. *)
Definition get_units (m : build) (d : Z) : outcome Z :=
  x <- i8 m (d + 8) ;; div9 x.

(** src/utils.rs:26-29, [mod9]. *)
Definition mod9 (d : Z) : outcome Z := get MOD9_TABLE d.

(** src/utils.rs:35-36. *)
Definition BIN_HIGH_UNIT : Z := 1000000.
Definition BIN_MID_UNIT : Z := 1000.

(** src/utils.rs:292-308, [d3_to_str]: appends to [buf]; returns the new
    buffer and the flag.  [val] is never negative at the call sites, so
    [val as usize] is [val]; a negative value would be a huge index, which
    the slice check of the model rejects as well. *)
Definition d3_to_str (val : Z) (buf : list Z) (elim_heading_zeroes : bool)
  : outcome (list Z * bool) :=
  if negb elim_heading_zeroes then
    s <- slice BIN2CHAR (val * 4 + 1) (val * 4 + 4) ;;
    Ret (buf ++ s, false)
  else
    cl <- get BIN2CHAR (val * 4) ;;
    if cl >? 0 then
      let start_idx := val * 4 + 4 - cl in
      s <- slice BIN2CHAR start_idx (start_idx + cl) ;;
      Ret (buf ++ s, false)
    else Ret (buf, true).

(** src/utils.rs:310-340, [unit_leading_zeroes]. *)
Definition unit_leading_zeroes (val : Z) : Z :=
  if val >=? 100000000 then 0
  else if val >=? 10000000 then 1
  else if val >=? 1000000 then 2
  else if val >=? 100000 then 3
  else if val >=? 10000 then 4
  else if val >=? 1000 then 5
  else if val >=? 100 then 6
  else if val >=? 10 then 7
  else if val >=? 1 then 8
  else 9.

(** src/utils.rs:342-373, [units_greater_equal]: the loop of lines 345-357
    over [lhs] reversed, [rhs] reversed and padded with zeroes. *)
Fixpoint uge_pad_r (l r : list Z) : bool :=
  match l with
  | [] => true
  | x :: l' =>
      let y := match r with [] => 0 | y :: _ => y end in
      let r' := match r with [] => [] | _ :: r' => r' end in
      if x >? y then true else if x <? y then false else uge_pad_r l' r'
  end.

(** ... and the loop of lines 359-372, [lhs] padded with zeroes. *)
Fixpoint uge_pad_l (l r : list Z) : bool :=
  match r with
  | [] => true
  | y :: r' =>
      let x := match l with [] => 0 | x :: _ => x end in
      let l' := match l with [] => [] | _ :: l' => l' end in
      if x >? y then true else if x <? y then false else uge_pad_l l' r'
  end.

Definition units_greater_equal (lhs rhs : list Z) : bool :=
  if zlen lhs >? zlen rhs then uge_pad_r (rev lhs) (rev rhs)
  else uge_pad_l (rev lhs) (rev rhs).

(** ** src/decimal.rs, accessors and mutators.  A [&mut self] method returns
    the new value. *)

(** src/decimal.rs:45-52 *)
Definition zero : fd := mkfd 1 0 zero_units.
(** src/decimal.rs:54-59 *)
Definition one : fd := mkfd 1 0 (upd 0 1 zero_units).
(** src/decimal.rs:61-64: [self.intg & (0x80u8 as i8) != 0]; 0x80 as i8 is -128. *)
Definition is_neg (d : fd) : bool := negb (Z.land (fd_intg d) (-128) =? 0).
(** src/decimal.rs:66-69: [self.intg |= 0x80u8 as i8] *)
Definition set_neg (d : fd) : fd := mkfd (Z.lor (fd_intg d) (-128)) (fd_frac d) (fd_lsu d).
(** src/decimal.rs:79-82: [self.intg &= 0x7f] *)
Definition set_pos (d : fd) : fd := mkfd (Z.land (fd_intg d) 127) (fd_frac d) (fd_lsu d).
(** src/decimal.rs:91-94: looks at all nine units. *)
Definition is_zero (d : fd) : bool := forallb (fun n => n =? 0) (fd_lsu d).
(** src/decimal.rs:71-77 *)
Definition set_neg_and_check_zero (d : fd) : fd :=
  let d := set_neg d in
  if is_zero d then set_pos d else d.
(** src/decimal.rs:124-127: [reset_units] writes 0 in each of the nine units. *)
Definition reset_units (d : fd) : fd := mkfd (fd_intg d) (fd_frac d) zero_units.
(** src/decimal.rs:84-89 *)
Definition set_zero (d : fd) : fd := reset_units (mkfd 1 0 (fd_lsu d)).
(** src/decimal.rs:96-102 *)
Definition set_one (d : fd) : fd :=
  let d := reset_units (mkfd 1 0 (fd_lsu d)) in mkfd (fd_intg d) (fd_frac d) (upd 0 1 (fd_lsu d)).
(** src/decimal.rs:104-107 *)
Definition intg (d : fd) : Z := Z.land (fd_intg d) 127.
(** src/decimal.rs:109-112 *)
Definition intg_units (m : build) (d : fd) : outcome Z := get_units m (intg d).
(** src/decimal.rs:114-117 *)
Definition frac (d : fd) : Z := fd_frac d.
(** src/decimal.rs:119-122 *)
Definition frac_units (m : build) (d : fd) : outcome Z := get_units m (frac d).

(** src/decimal.rs:12-26, the range constants. *)
Definition MAX_I64 : fd := mkfd 19 0 [854775807; 223372036; 9; 0; 0; 0; 0; 0; 0].
(** [(19 | 0x80) as i8] = 147 as i8 = -109 *)
Definition MIN_I64 : fd :=
  mkfd (as_i8 (Z.lor 19 128)) 0 [854775808; 223372036; 9; 0; 0; 0; 0; 0; 0].
Definition MAX_U64 : fd := mkfd 20 0 [709551615; 446744073; 18; 0; 0; 0; 0; 0; 0].
