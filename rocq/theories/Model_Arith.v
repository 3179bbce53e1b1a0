(** * Model of src/arith.rs.

    Conventions: a function writing through [res: &mut FixedDecimal] returns
    the new value of [*res] beside its [Result], also when it returns [Err].
    Index arithmetic (usize/isize values below 64) is exact unless an
    operation can leave that range, in which case the check is written out.
    A counting loop becomes recursion on its number of iterations. *)
From Coq Require Import ZArith List Bool.
Import ListNotations.
From Verif Require Import Rust Tables Model_Base Model_Cmp Model_Round.
Open Scope Z_scope.

(** src/arith.rs:9 *)
Definition DIV_INCR_FRAC : Z := 4.

(** src/arith.rs:946-954, [sub_with_borrow]; the borrow is 0 or -1. *)
Definition sub_with_borrow (m : build) (a b borrow : Z) : outcome (Z * Z) :=
  t <- i32 m (a - b) ;;
  r <- i32 m (t + borrow) ;;
  if r <? 0 then
    r' <- i32 m (UNIT + r) ;; Ret (r', -1)
  else Ret (r, 0).

(** ** Addition *)

(** src/arith.rs:225-232, the loop over the common units: [n] iterations
    from indices [li], [ri], [si] of lhs, rhs, res. *)
Fixpoint add_loop (m : build) (n : nat) (a b : list Z) (li ri : Z) (r : list Z) (si carry : Z)
  : outcome (list Z * Z) :=
  match n with
  | O => Ret (r, carry)
  | S n' =>
      x <- get a li ;;
      y <- get b ri ;;
      '(r0, c0) <- add_with_carry m x y carry ;;
      r <- set r si r0 ;;
      add_loop m n' a b (li + 1) (ri + 1) r (si + 1) c0
  end.

(** src/arith.rs:237-243 (and 250-256): the operand with more integral units
    is added to 0 and the carry. *)
Fixpoint add_rest (m : build) (n : nat) (a : list Z) (li : Z) (r : list Z) (si carry : Z)
  : outcome (list Z * Z) :=
  match n with
  | O => Ret (r, carry)
  | S n' =>
      x <- get a li ;;
      '(r0, c0) <- add_with_carry m x 0 carry ;;
      r <- set r si r0 ;;
      add_rest m n' a (li + 1) r (si + 1) c0
  end.

(** src/arith.rs:268-273 and 373-378: [while k >= 0 { if lsu[k + fu] > 0
    break; k -= 1 }], [n = k + 1] iterations at most; returns the final [k]. *)
Fixpoint top_non_zero (n : nat) (l : list Z) (fu : Z) : outcome Z :=
  match n with
  | O => Ret (-1)
  | S n' =>
      v <- get l (Z.of_nat n' + fu) ;;
      if v >? 0 then Ret (Z.of_nat n') else top_non_zero n' l fu
  end.

(** src/arith.rs:199-280, [add_abs] *)
Definition add_abs (m : build) (lhs rhs res : fd) : outcome (result unit * fd) :=
  let res := set_zero res in
  liu <- intg_units m lhs ;;
  lfu <- frac_units m lhs ;;
  riu <- intg_units m rhs ;;
  rfu <- frac_units m rhs ;;
  let d := lfu - rfu in
  '(li, ri, si, r) <-
    match d ?= 0 with
    | Gt =>
        s <- slice (fd_lsu lhs) 0 d ;;
        r <- write_slice (fd_lsu res) 0 d s ;;
        Ret (d, 0, d, r)
    | Lt =>
        s <- slice (fd_lsu rhs) 0 (- d) ;;
        r <- write_slice (fd_lsu res) 0 (- d) s ;;
        Ret (0, - d, - d, r)
    | Eq => Ret (0, 0, 0, fd_lsu res)
    end ;;
  let n := Z.min liu riu + Z.min lfu rfu in
  '(r, carry) <- add_loop m (Z.to_nat n) (fd_lsu lhs) (fd_lsu rhs) li ri r si 0 ;;
  let li := li + n in
  let ri := ri + n in
  let si := si + n in
  let e := liu - riu in
  '(r, carry) <-
    (if e >? 0 then
       '(r, carry) <- add_rest m (Z.to_nat e) (fd_lsu lhs) li r si carry ;;
       if carry >? 0 then r <- set r (si + e) carry ;; Ret (r, carry)
       else Ret (r, carry)
     else if e <? 0 then
       '(r, carry) <- add_rest m (Z.to_nat (- e)) (fd_lsu rhs) ri r si carry ;;
       if carry >? 0 then r <- set r (si - e) carry ;; Ret (r, carry)
       else Ret (r, carry)
     else if negb (carry =? 0) then
       r <- set r si carry ;; Ret (r, carry)
     else Ret (r, carry)) ;;
  let res := mkfd (fd_intg res) (Z.max (fd_frac lhs) (fd_frac rhs)) r in
  fu <- frac_units m res ;;
  k <- top_non_zero (Z.to_nat (Z.max liu riu + carry + 1)) r fu ;;
  if k >=? 0 then
    Ret (Ok tt, mkfd (as_i8 ((k + 1) * DIGITS_PER_UNIT)) (fd_frac res) r)
  else Ret (Ok tt, mkfd 0 (fd_frac res) r).

(** ** Subtraction *)

(** src/arith.rs:312-321: the low fractional units of rhs subtracted from 0;
    writes units [si..si+n) of the result. *)
Fixpoint sub_low (m : build) (n : nat) (b : list Z) (ri : Z) (r : list Z) (si borrow : Z)
  : outcome (list Z * Z) :=
  match n with
  | O => Ret (r, borrow)
  | S n' =>
      y <- get b ri ;;
      '(r0, b0) <- sub_with_borrow m 0 y borrow ;;
      r <- set r si r0 ;;
      sub_low m n' b (ri + 1) r (si + 1) b0
  end.

(** src/arith.rs:328-336 *)
Fixpoint sub_loop (m : build) (n : nat) (a b : list Z) (li ri : Z) (r : list Z) (si borrow : Z)
  : outcome (list Z * Z) :=
  match n with
  | O => Ret (r, borrow)
  | S n' =>
      x <- get a li ;;
      y <- get b ri ;;
      '(r0, b0) <- sub_with_borrow m x y borrow ;;
      r <- set r si r0 ;;
      sub_loop m n' a b (li + 1) (ri + 1) r (si + 1) b0
  end.

(** src/arith.rs:341-347 *)
Fixpoint sub_rest (m : build) (n : nat) (a : list Z) (li : Z) (r : list Z) (si borrow : Z)
  : outcome (list Z * Z) :=
  match n with
  | O => Ret (r, borrow)
  | S n' =>
      x <- get a li ;;
      '(r0, b0) <- sub_with_borrow m x 0 borrow ;;
      r <- set r si r0 ;;
      sub_rest m n' a (li + 1) r (si + 1) b0
  end.

(** src/arith.rs:364-368: [for i in 0..res_idx { lsu[i] = 0 - lsu[i] + borrow }] *)
Fixpoint negate_units (m : build) (n : nat) (l : list Z) (i borrow : Z) : outcome (list Z * Z) :=
  match n with
  | O => Ret (l, borrow)
  | S n' =>
      x <- get l i ;;
      '(r0, b0) <- sub_with_borrow m 0 x borrow ;;
      l <- set l i r0 ;;
      negate_units m n' l (i + 1) b0
  end.

(** src/arith.rs:292-385, [sub_abs]; the [bool] is the returned negative flag. *)
Definition sub_abs (m : build) (lhs rhs res : fd) : outcome (result bool * fd) :=
  let res := set_zero res in
  liu <- intg_units m lhs ;;
  lfu <- frac_units m lhs ;;
  riu <- intg_units m rhs ;;
  rfu <- frac_units m rhs ;;
  let d := lfu - rfu in
  '(li, ri, si, r, borrow) <-
    match d ?= 0 with
    | Gt =>
        s <- slice (fd_lsu lhs) 0 d ;;
        r <- write_slice (fd_lsu res) 0 d s ;;
        Ret (d, 0, d, r, 0)
    | Lt =>
        '(r, borrow) <- sub_low m (Z.to_nat (- d)) (fd_lsu rhs) 0 (fd_lsu res) 0 0 ;;
        Ret (0, - d, - d, r, borrow)
    | Eq => Ret (0, 0, 0, fd_lsu res, 0)
    end ;;
  let n := Z.min liu riu + Z.min lfu rfu in
  '(r, borrow) <- sub_loop m (Z.to_nat n) (fd_lsu lhs) (fd_lsu rhs) li ri r si borrow ;;
  let li := li + n in
  let ri := ri + n in
  let si := si + n in
  let e := liu - riu in
  '(r, borrow, si) <-
    match e ?= 0 with
    | Gt =>
        '(r, borrow) <- sub_rest m (Z.to_nat e) (fd_lsu lhs) li r si borrow ;;
        Ret (r, borrow, si + e)
    | Lt =>
        '(r, borrow) <- sub_low m (Z.to_nat (- e)) (fd_lsu rhs) ri r si borrow ;;
        Ret (r, borrow, si - e)
    | Eq => Ret (r, borrow, si)
    end ;;
  let neg := borrow =? -1 in
  r <- (if neg then
          '(r, _) <- negate_units m (Z.to_nat si) r 0 0 ;; Ret r
        else Ret r) ;;
  let res := mkfd (fd_intg res) (Z.max (fd_frac lhs) (fd_frac rhs)) r in
  fu <- frac_units m res ;;
  k <- top_non_zero (Z.to_nat (Z.max liu riu + 1)) r fu ;;
  if k >=? 0 then
    Ret (Ok neg, mkfd (as_i8 ((k + 1) * DIGITS_PER_UNIT)) (fd_frac res) r)
  else Ret (Ok neg, mkfd 0 (fd_frac res) r).

(** ** Multiplication *)

(** src/arith.rs:424-441, the inner loop for one [rv]: [lvs] are the units of
    lhs from index [lhs_idx] on; the state is the result array, the carry and
    [res_idx]. *)
Fixpoint mul_row (m : build) (lvs : list Z) (lhs_idx rhs_idx shift rv : Z)
    (r : list Z) (carry res_idx : Z) : outcome (list Z * Z * Z) :=
  match lvs with
  | [] => Ret (r, carry, res_idx)
  | lv :: lvs' =>
      let res_idx := lhs_idx + rhs_idx - shift in
      if res_idx <? -1 then mul_row m lvs' (lhs_idx + 1) rhs_idx shift rv r carry res_idx
      else if res_idx =? -1 then
        v <- i64 m (lv * rv) ;;
        if v <? UNIT then mul_row m lvs' (lhs_idx + 1) rhs_idx shift rv r carry res_idx
        else
          carry <- i64_div m v UNIT ;;
          mul_row m lvs' (lhs_idx + 1) rhs_idx shift rv r carry res_idx
      else
        p <- i64 m (lv * rv) ;;
        old <- get r res_idx ;;
        s <- i64 m (p + old) ;;
        v <- i64 m (s + carry) ;;
        carry <- i64_div m v UNIT ;;
        cu <- i64 m (carry * UNIT) ;;
        w <- i64 m (v - cu) ;;
        r <- set r res_idx (as_i32 w) ;;
        mul_row m lvs' (lhs_idx + 1) rhs_idx shift rv r carry res_idx
  end.

(** src/arith.rs:422-449, the outer loop.  [Err Overflow] is the early return
    at line 446. *)
Fixpoint mul_rows (m : build) (rvs lvs : list Z) (rhs_idx shift : Z) (r : list Z)
  : outcome (result unit * list Z) :=
  match rvs with
  | [] => Ret (Ok tt, r)
  | rv :: rvs' =>
      '(r, carry, res_idx) <- mul_row m lvs 0 rhs_idx shift rv r 0 (-1) ;;
      _ <- debug_assert m (res_idx >=? 0) ;;
      if res_idx + 1 <? MAX_UNITS then
        r <- set r (res_idx + 1) (as_i32 carry) ;;
        mul_rows m rvs' lvs (rhs_idx + 1) shift r
      else if carry >? 0 then Ret (Err Overflow, r)
      else mul_rows m rvs' lvs (rhs_idx + 1) shift r
  end.

(** src/arith.rs:390-453, [mul_abs] *)
Definition mul_abs (m : build) (lhs rhs res : fd) : outcome (result unit * fd) :=
  let res := set_zero res in
  res_intg_digits <- i8 m (intg lhs + intg rhs) ;;
  res_intg_units <- get_units m res_intg_digits ;;
  res_frac_digits <- i8 m (frac lhs + frac rhs) ;;
  res_frac_units <- get_units m res_frac_digits ;;
  if res_intg_units >? MAX_UNITS then Ret (Err Overflow, res)
  else
    let res_frac_units :=
      if res_intg_units + res_frac_units >? MAX_UNITS
      then MAX_UNITS - res_intg_units else res_frac_units in
    let res_frac_units :=
      if res_frac_units >? MAX_FRAC_UNITS then MAX_FRAC_UNITS else res_frac_units in
    liu <- intg_units m lhs ;;
    lfu <- frac_units m lhs ;;
    riu <- intg_units m rhs ;;
    rfu <- frac_units m rhs ;;
    shift <- usize m (lfu + rfu - res_frac_units) ;;
    let shift := as_isize shift in
    rvs <- slice (fd_lsu rhs) 0 (riu + rfu) ;;
    (* the inner slice is taken once per outer iteration (line 424) *)
    lvs <- (match rvs with [] => Ret [] | _ => slice (fd_lsu lhs) 0 (liu + lfu) end) ;;
    '(rs, r) <- mul_rows m rvs lvs 0 shift (fd_lsu res) ;;
    match rs with
    | Err e => Ret (Err e, mkfd (fd_intg res) (fd_frac res) r)
    | Ok _ =>
        Ret (Ok tt, mkfd (as_i8 (res_intg_units * DIGITS_PER_UNIT))
                         (Z.min res_frac_digits (as_i8 (res_frac_units * DIGITS_PER_UNIT))) r)
    end.

(** ** Division *)

(** src/arith.rs:476-482, 489-495, 698-704, 710-716: the leading non-zero
    unit among the first [n] units, -1 if there is none. *)
Fixpoint lead_non_zero (n : nat) (l : list Z) : outcome Z :=
  match n with
  | O => Ret (-1)
  | S n' =>
      v <- get l (Z.of_nat n') ;;
      if v >? 0 then Ret (Z.of_nat n') else lead_non_zero n' l
  end.

(** src/arith.rs:562-573, short division; [n = j + 1] iterations. *)
Fixpoint short_div (m : build) (n : nat) (a : list Z) (d rem i : Z) (r : list Z)
  : outcome (list Z) :=
  match n with
  | O => Ret r
  | S n' =>
      u <- (if i >=? 0 then
              t <- i64 m (rem * UNIT) ;; x <- get a i ;; i64 m (t + x)
            else i64 m (rem * UNIT)) ;;
      q <- i64_div m u d ;;
      qd <- i64 m (q * d) ;;
      rem <- i64 m (u - qd) ;;
      r <- set r (Z.of_nat n') (as_i32 q) ;;
      short_div m n' a d rem (i - 1) r
  end.

(** src/arith.rs:590-600, 605-613, 823-830, 835-842: units multiplied by the
    normalization factor, with carry. *)
Fixpoint norm_units (m : build) (nf : Z) (l : list Z) (carry : Z) : outcome (list Z * Z) :=
  match l with
  | [] => Ret ([], carry)
  | x :: l' =>
      p <- i64 m (x * nf) ;;
      u <- i64 m (p + carry) ;;
      carry <- i64_div m u UNIT ;;
      cu <- i64 m (carry * UNIT) ;;
      w <- i64 m (u - cu) ;;
      '(t, c) <- norm_units m nf l' carry ;;
      Ret (as_i32 w :: t, c)
  end.

(** src/arith.rs:637-641 and 864-868: [while qhat * d1 > rhat * UNIT + u2
    { qhat -= 1; rhat += d0; }].  [PFuel] if [fuel] tests do not end it. *)
Fixpoint qhat_loop (m : build) (fuel : nat) (qhat rhat d0 d1 u2 : Z) : outcome Z :=
  match fuel with
  | O => Panic PFuel
  | S fuel' =>
      a <- i64 m (qhat * d1) ;;
      b <- i64 m (rhat * UNIT) ;;
      b <- i64 m (b + u2) ;;
      if a >? b then
        qhat <- i64 m (qhat - 1) ;;
        rhat <- i64 m (rhat + d0) ;;
        qhat_loop m fuel' qhat rhat d0 d1 u2
      else Ret qhat
  end.

Definition qhat_fuel : nat := 8.

(** src/arith.rs:622-641 and 850-868, step D3: the guess of one quotient unit. *)
Definition guess_qhat (m : build) (buf1 : list Z) (i d0 d1 : Z) : outcome Z :=
  k <- usize m (as_usize i + 1) ;;
  u0 <- get buf1 k ;;
  u1 <- (if i >=? 0 then get buf1 i else Ret 0) ;;
  t <- i64 m (u0 * UNIT) ;;
  u <- i64 m (t + u1) ;;
  qhat <- i64_div m u d0 ;;
  qd <- i64 m (qhat * d0) ;;
  rhat <- i64 m (u - qd) ;;
  _ <- debug_assert m (qhat <? UNIT) ;;
  u2 <- (if i >? 0 then get buf1 (i - 1) else Ret 0) ;;
  qhat_loop m qhat_fuel qhat rhat d0 d1 u2.

(** src/arith.rs:647-661, step D4 of the division: multiply and subtract;
    [b2] are the units of the normalized divisor from [k] on. *)
Fixpoint mul_sub (m : build) (b2 : list Z) (qhat : Z) (buf1 : list Z) (ms_idx carry borrow : Z)
  : outcome (list Z * Z * Z) :=
  match b2 with
  | [] => Ret (buf1, carry, borrow)
  | d :: b2' =>
      p <- i64 m (qhat * d) ;;
      mul_v <- i64 m (p + carry) ;;
      carry <- i64_div m mul_v UNIT ;;
      cu <- i64 m (carry * UNIT) ;;
      mul_v0 <- i64 m (mul_v - cu) ;;
      if ms_idx <? 0 then
        '(_, b0) <- sub_with_borrow m 0 (as_i32 mul_v0) borrow ;;
        mul_sub m b2' qhat buf1 (ms_idx + 1) carry b0
      else
        x <- get buf1 ms_idx ;;
        '(sub_v, b0) <- sub_with_borrow m x (as_i32 mul_v0) borrow ;;
        buf1 <- set buf1 ms_idx sub_v ;;
        mul_sub m b2' qhat buf1 (ms_idx + 1) carry b0
  end.

(** src/arith.rs:621-680, the main loop of the long division: [n = j + 1]
    iterations; [b2] is [buf2[..=rhs_non_zero]]. *)
Fixpoint long_div (m : build) (n : nat) (b2 : list Z) (rnz d0 d1 : Z) (buf1 : list Z) (i : Z)
    (r : list Z) : outcome (list Z) :=
  match n with
  | O => Ret r
  | S n' =>
      let j := Z.of_nat n' in
      qhat <- guess_qhat m buf1 i d0 d1 ;;
      '(buf1, carry, borrow) <- mul_sub m b2 qhat buf1 (i - rnz) 0 0 ;;
      let ms_idx := i + 1 in
      x <- get buf1 ms_idx ;;
      t <- i32 m (x - as_i32 carry) ;;
      borrow <- i32 m (borrow + t) ;;
      '(qhat, buf1) <-
        (if borrow =? -1 then
           qhat <- i64 m (qhat - 1) ;;
           '(buf1, _) <- negate_units m (Z.to_nat rnz) buf1 j 0 ;;
           Ret (qhat, buf1)
         else
           buf1 <- set buf1 ms_idx 0 ;;
           Ret (qhat, buf1)) ;;
      r <- set r j (as_i32 qhat) ;;
      long_div m n' b2 rnz d0 d1 buf1 (i - 1) r
  end.

(** src/arith.rs:458-684, [div_abs].  [incr_frac] is the isize the caller
    passes; the arithmetic on it is checked, the rest of the index arithmetic
    is exact. *)
Definition div_abs (m : build) (lhs rhs res : fd) (incr_frac : Z) : outcome (result unit * fd) :=
  let res := set_zero res in
  liu <- get_units m (intg lhs) ;;
  lfu <- get_units m (frac lhs) ;;
  let lhs_ext_frac := lfu * DIGITS_PER_UNIT in
  riu <- get_units m (intg rhs) ;;
  rfu <- get_units m (frac rhs) ;;
  let rhs_ext_frac := rfu * DIGITS_PER_UNIT in
  rnz <- lead_non_zero (Z.to_nat (riu + rfu)) (fd_lsu rhs) ;;
  if rnz <? 0 then Ret (Err DivisionByZero, res)
  else
  lnz <- lead_non_zero (Z.to_nat (liu + lfu)) (fd_lsu lhs) ;;
  if lnz <? 0 then Ret (Ok tt, res)
  else
  rtop <- get (fd_lsu rhs) rnz ;;
  ltop <- get (fd_lsu lhs) lnz ;;
  let rhs_prec := (rnz + 1) * DIGITS_PER_UNIT - unit_leading_zeroes rtop in
  let lhs_prec := (lnz + 1) * DIGITS_PER_UNIT - unit_leading_zeroes ltop in
  incr_frac <- isize m (incr_frac - (lhs_ext_frac - frac lhs + rhs_ext_frac - frac rhs)) ;;
  let incr_frac := if incr_frac <? 0 then 0 else incr_frac in
  f <- isize m (lhs_ext_frac + rhs_ext_frac + incr_frac) ;;
  res_frac_units <- get_units m (as_i8 f) ;;
  let res_frac_units :=
    if res_frac_units >? MAX_FRAC_UNITS then MAX_FRAC_UNITS else res_frac_units in
  let res_intg := (lhs_prec - lhs_ext_frac) - (rhs_prec - rhs_ext_frac) in
  ls <- slice (fd_lsu lhs) 0 (lnz + 1) ;;
  rs <- slice (fd_lsu rhs) 0 (rnz + 1) ;;
  let ge := units_greater_equal ls rs in
  let res_intg := if ge then res_intg + 1 else res_intg in
  let dividend_shift := if ge then 0 else -1 in
  plan <-
    (if res_intg >? 0 then
       res_intg_units <- get_units m (as_i8 res_intg) ;;
       if res_intg_units >? MAX_UNITS then Ret None
       else
         let res_frac_units :=
           if res_intg_units + res_frac_units >? MAX_UNITS
           then MAX_UNITS - res_intg_units else res_frac_units in
         Ret (Some (res_intg_units, res_frac_units,
                    res_frac_units + res_intg_units - 1, res_intg))
     else
       res_start_offset <- get_units m (as_i8 (1 - res_intg)) ;;
       Ret (Some (0, res_frac_units, res_frac_units - res_start_offset, 0))) ;;
  match plan with
  | None => Ret (Err Overflow, res)
  | Some (res_intg_units, res_frac_units, res_start_idx, res_intg) =>
      let res_units := res_intg_units + res_frac_units in
      let n := Z.to_nat (res_start_idx + 1) in
      let finish (r : list Z) : outcome (result unit * fd) :=
        Ret (Ok tt, mkfd (as_i8 res_intg) (as_i8 (res_frac_units * DIGITS_PER_UNIT)) r) in
      if rnz =? 0 then
        d <- get (fd_lsu rhs) 0 ;;
        rem <- (if dividend_shift <? 0 then get (fd_lsu lhs) lnz else Ret 0) ;;
        r <- short_div m n (fd_lsu lhs) d rem (lnz + dividend_shift) (fd_lsu res) ;;
        finish r
      else
        t <- i64 m (rtop + 1) ;;
        nf <- i64_div m UNIT t ;;
        '(buf1, buf2) <-
          (if nf =? 1 then
             buf1 <- write_slice (repeat 0 18) res_units (res_units + lnz + 1) ls ;;
             buf2 <- write_slice (repeat 0 9) 0 (rnz + 1) rs ;;
             Ret (buf1, buf2)
           else
             let buf1_end := res_units + lnz + 1 in
             '(nl, carry) <- norm_units m nf ls 0 ;;
             buf1 <- write_slice (repeat 0 18) res_units buf1_end nl ;;
             '(buf1, carry) <-
               (if carry >? 0 then
                  buf1 <- set buf1 buf1_end (as_i32 carry) ;; Ret (buf1, 0)
                else Ret (buf1, carry)) ;;
             '(nr, carry) <- norm_units m nf rs carry ;;
             buf2 <- write_slice (repeat 0 9) 0 (rnz + 1) nr ;;
             _ <- debug_assert m (carry =? 0) ;;
             Ret (buf1, buf2)) ;;
        d0 <- get buf2 rnz ;;
        d1 <- get buf2 (rnz - 1) ;;
        let b2 := firstn (Z.to_nat (rnz + 1)) buf2 in
        r <- long_div m n b2 rnz d0 d1 buf1 (res_units + lnz + dividend_shift) (fd_lsu res) ;;
        finish r
  end.

(** ** Remainder *)

(** src/arith.rs:779-784, short remainder loop from index [i] down to [stop]:
    [n = i - stop + 1] iterations. *)
Fixpoint short_rem (m : build) (n : nat) (buf : list Z) (d rem i : Z) : outcome Z :=
  match n with
  | O => Ret rem
  | S n' =>
      t <- i64 m (rem * UNIT) ;;
      x <- get buf i ;;
      u <- i64 m (t + x) ;;
      q <- i64_div m u d ;;
      qd <- i64 m (q * d) ;;
      rem <- i64 m (u - qd) ;;
      short_rem m n' buf d rem (i - 1)
  end.

(** src/arith.rs:790-798: copy units [n-1 .. 0] of [buf] to the result and
    track the leading non-zero index. *)
Fixpoint copy_rest (n : nat) (buf r : list Z) (res_non_zero : Z) : outcome (list Z * Z) :=
  match n with
  | O => Ret (r, res_non_zero)
  | S n' =>
      v <- get buf (Z.of_nat n') ;;
      r <- set r (Z.of_nat n') v ;;
      copy_rest n' buf r
        (if (v >? 0) && (res_non_zero <? 0) then Z.of_nat n' else res_non_zero)
  end.

(** src/arith.rs:872-882: multiply and subtract over two zipped slices;
    returns the new slice, carry and borrow. *)
Fixpoint mul_sub_zip (m : build) (qhat : Z) (w b2 : list Z) (carry borrow : Z)
  : outcome (list Z * Z * Z) :=
  match w, b2 with
  | x :: w', d :: b2' =>
      p <- i64 m (qhat * d) ;;
      mul_v <- i64 m (p + carry) ;;
      carry <- i64_div m mul_v UNIT ;;
      cu <- i64 m (carry * UNIT) ;;
      mul_v0 <- i64 m (mul_v - cu) ;;
      '(sub_v, b0) <- sub_with_borrow m x (as_i32 mul_v0) borrow ;;
      '(t, c, b) <- mul_sub_zip m qhat w' b2' carry b0 ;;
      Ret (sub_v :: t, c, b)
  | w, _ => Ret (w, carry, borrow)
  end.

(** src/arith.rs:849-898, the main loop of the long remainder: [n = i - stop
    + 1] iterations. *)
Fixpoint long_rem (m : build) (n : nat) (b2 : list Z) (buf2_len d0 d1 : Z) (buf1 : list Z) (i : Z)
  : outcome (list Z) :=
  match n with
  | O => Ret buf1
  | S n' =>
      qhat <- guess_qhat m buf1 i d0 d1 ;;
      w <- slice buf1 (i - buf2_len + 1) (i + 1) ;;
      '(w, carry, borrow) <- mul_sub_zip m qhat w b2 0 0 ;;
      buf1 <- write_slice buf1 (i - buf2_len + 1) (i + 1) w ;;
      x <- get buf1 (i + 1) ;;
      t <- i32 m (x - as_i32 carry) ;;
      borrow <- i32 m (borrow + t) ;;
      buf1 <-
        (if borrow =? -1 then
           '(buf1, _) <- negate_units m (Z.to_nat buf2_len) buf1 (i - buf2_len + 1) 0 ;;
           Ret buf1
         else Ret buf1) ;;
      buf1 <- set buf1 (i + 1) 0 ;;
      long_rem m n' b2 buf2_len d0 d1 buf1 (i - 1)
  end.

(** src/arith.rs:906-920: division of the remainder by the normalization
    factor, from index [n - 1] down to 0. *)
Fixpoint denorm (m : build) (n : nat) (buf1 : list Z) (nf rem : Z) (r : list Z) (res_non_zero : Z)
  : outcome (list Z * Z * Z) :=
  match n with
  | O => Ret (r, rem, res_non_zero)
  | S n' =>
      let i := Z.of_nat n' in
      t <- i64 m (rem * UNIT) ;;
      x <- get buf1 i ;;
      u <- i64 m (t + x) ;;
      if u =? 0 then denorm m n' buf1 nf rem r res_non_zero
      else
        q <- i64_div m u nf ;;
        qn <- i64 m (q * nf) ;;
        rem <- i64 m (u - qn) ;;
        if q >? 0 then
          r <- set r i (as_i32 q) ;;
          denorm m n' buf1 nf rem r (if res_non_zero <? 0 then i else res_non_zero)
        else denorm m n' buf1 nf rem r res_non_zero
  end.

(** src/arith.rs:799-808 and 924-933: the digit counts of the remainder. *)
Definition rem_finish (m : build) (r : list Z) (res_non_zero rem_frac_units rem_frac : Z)
  : outcome (result unit * fd) :=
  if res_non_zero >=? rem_frac_units then
    let riu := as_i8 (res_non_zero + 1 - rem_frac_units) in
    p <- i8 m (riu * DIGITS_PER_UNIT) ;;
    k <- i8 m (riu + as_i8 rem_frac_units) ;;
    k <- i8 m (k - 1) ;;
    u <- get r k ;;
    ig <- i8 m (p - unit_leading_zeroes u) ;;
    Ret (Ok tt, mkfd ig rem_frac r)
  else Ret (Ok tt, mkfd 0 rem_frac r).

(** src/arith.rs:687-934, [rem_abs] *)
Definition rem_abs (m : build) (lhs rhs res : fd) : outcome (result unit * fd) :=
  let res := set_zero res in
  liu <- get_units m (intg lhs) ;;
  lfu <- get_units m (frac lhs) ;;
  riu <- get_units m (intg rhs) ;;
  rfu <- get_units m (frac rhs) ;;
  rnz <- lead_non_zero (Z.to_nat (riu + rfu)) (fd_lsu rhs) ;;
  if rnz <? 0 then Ret (Err DivisionByZero, res)
  else
  lnz <- lead_non_zero (Z.to_nat (liu + lfu)) (fd_lsu lhs) ;;
  if lnz <? 0 then Ret (Ok tt, res)
  else
  c <- cmp_abs_lsu liu lfu (fd_lsu lhs) riu rfu (fd_lsu rhs) ;;
  match c with
  | Lt =>
      s <- slice (fd_lsu lhs) 0 (lfu + liu) ;;
      if rfu >? lfu then
        r <- write_slice (fd_lsu res) (rfu - lfu) (liu + rfu) s ;;
        Ret (Ok tt, mkfd (intg lhs) (frac rhs) r)
      else
        r <- write_slice (fd_lsu res) 0 (lfu + liu) s ;;
        Ret (Ok tt, mkfd (intg lhs) (Z.max (frac lhs) (frac rhs)) r)
  | Eq => Ret (Ok tt, res)
  | Gt =>
      let rem_frac := Z.max (frac lhs) (frac rhs) in
      rem_frac_units <- get_units m rem_frac ;;
      ls <- slice (fd_lsu lhs) 0 (lnz + 1) ;;
      rs <- slice (fd_lsu rhs) 0 (rnz + 1) ;;
      let dividend_shift := if units_greater_equal ls rs then 0 else -1 in
      let lhs_shift_units := if lfu <? rfu then rfu - lfu else 0 in
      let rhs_shift_units := if lfu <? rfu then 0 else lfu - rfu in
      if rnz =? 0 then
        d <- get (fd_lsu rhs) 0 ;;
        let buf_len := lhs_shift_units + lnz + 1 in
        buf <- write_slice (repeat 0 18) lhs_shift_units buf_len ls ;;
        rem <- (if dividend_shift <? 0 then get (fd_lsu lhs) lnz else Ret 0) ;;
        let stop := rnz + rhs_shift_units in
        let i := buf_len - 1 + dividend_shift in
        let n := Z.to_nat (i - stop + 1) in
        rem <- short_rem m n buf d rem i ;;
        let i := i - Z.of_nat n in
        '(r, nz) <-
          (if rem >? 0 then
             r <- set (fd_lsu res) (i + 1) (as_i32 rem) ;; Ret (r, i + 1)
           else Ret (fd_lsu res, -1)) ;;
        '(r, nz) <- copy_rest (Z.to_nat (i + 1)) buf r nz ;;
        rem_finish m r nz rem_frac_units rem_frac
      else
        let buf1_len := lnz + 1 + lhs_shift_units in
        let buf2_len := rnz + 1 + rhs_shift_units in
        rtop <- get (fd_lsu rhs) rnz ;;
        t <- i64 m (rtop + 1) ;;
        nf <- i64_div m UNIT t ;;
        '(buf1, buf2) <-
          (if nf =? 1 then
             buf1 <- write_slice (repeat 0 18) lhs_shift_units buf1_len ls ;;
             buf2 <- write_slice (repeat 0 18) rhs_shift_units buf2_len rs ;;
             Ret (buf1, buf2)
           else
             '(nl, carry) <- norm_units m nf ls 0 ;;
             buf1 <- write_slice (repeat 0 18) lhs_shift_units buf1_len nl ;;
             '(buf1, carry) <-
               (if carry >? 0 then
                  buf1 <- set buf1 buf1_len (as_i32 carry) ;; Ret (buf1, 0)
                else Ret (buf1, carry)) ;;
             '(nr, carry) <- norm_units m nf rs carry ;;
             buf2 <- write_slice (repeat 0 18) rhs_shift_units buf2_len nr ;;
             _ <- debug_assert m (carry =? 0) ;;
             Ret (buf1, buf2)) ;;
        let stop := buf2_len - 1 in
        d0 <- get buf2 (rnz + rhs_shift_units) ;;
        d1 <- get buf2 (rnz + rhs_shift_units - 1) ;;
        let i := buf1_len + dividend_shift - 1 in
        b2 <- slice buf2 0 buf2_len ;;
        buf1 <- long_rem m (Z.to_nat (i - stop + 1)) b2 buf2_len d0 d1 buf1 i ;;
        x <- (match m with Debug => get buf1 buf1_len | Release => Ret 0 end) ;;
        _ <- debug_assert m (x =? 0) ;;
        '(r, rem, nz) <- denorm m (Z.to_nat buf1_len) buf1 nf 0 (fd_lsu res) (-1) ;;
        _ <- debug_assert m (rem =? 0) ;;
        rem_finish m r nz rem_frac_units rem_frac
  end.

(** ** The public interface of src/arith.rs *)

(** [x?; if c { res.set_neg_and_check_zero() }; Ok(())], the common tail of
    lines 25-29, 31-35, 56-66, 76-80, 86-90, 96-100; on [Err] the [?]
    returns with [res] as the callee left it. *)
Definition finish_sign (o : result unit * fd) (c : bool) : outcome (result unit * fd) :=
  let '(rs, res) := o in
  match rs with
  | Ok _ => Ret (Ok tt, if c then set_neg_and_check_zero res else res)
  | Err e => Ret (Err e, res)
  end.

(** The same after [sub_abs], whose flag decides the sign. *)
Definition finish_sub (o : result bool * fd) (lneg : bool) : outcome (result unit * fd) :=
  let '(rs, res) := o in
  match rs with
  | Ok sub_neg => Ret (Ok tt, if xorb sub_neg lneg then set_neg_and_check_zero res else res)
  | Err e => Ret (Err e, res)
  end.

(** src/arith.rs:12-36, [add_to] *)
Definition add_to (m : build) (lhs rhs res : fd) : outcome (result unit * fd) :=
  if is_zero lhs then Ret (Ok tt, rhs)
  else if is_zero rhs then Ret (Ok tt, lhs)
  else
    let lneg := is_neg lhs in
    let rneg := is_neg rhs in
    if eqb lneg rneg then
      o <- add_abs m lhs rhs res ;; finish_sign o lneg
    else
      o <- sub_abs m lhs rhs res ;; finish_sub o lneg.

(** src/arith.rs:38-67, [sub_to] *)
Definition sub_to (m : build) (lhs rhs res : fd) : outcome (result unit * fd) :=
  if is_zero lhs then
    let res := rhs in
    Ret (Ok tt, if is_neg res then set_pos res else set_neg_and_check_zero res)
  else if is_zero rhs then Ret (Ok tt, lhs)
  else
    let lneg := is_neg lhs in
    let rneg := is_neg rhs in
    if negb (eqb lneg rneg) then
      o <- add_abs m lhs rhs res ;; finish_sign o lneg
    else
      o <- sub_abs m lhs rhs res ;; finish_sub o lneg.

(** src/arith.rs:69-81, [mul_to] *)
Definition mul_to (m : build) (lhs rhs res : fd) : outcome (result unit * fd) :=
  if is_zero lhs || is_zero rhs then Ret (Ok tt, set_zero res)
  else
    let res_neg := xorb (is_neg lhs) (is_neg rhs) in
    o <- mul_abs m lhs rhs res ;; finish_sign o res_neg.

(** src/arith.rs:83-91, [div_to]; [incr_frac : usize], passed on [as isize]. *)
Definition div_to (m : build) (lhs rhs res : fd) (incr_frac : Z) : outcome (result unit * fd) :=
  let res_neg := xorb (is_neg lhs) (is_neg rhs) in
  o <- div_abs m lhs rhs res (as_isize incr_frac) ;; finish_sign o res_neg.

(** src/arith.rs:93-101, [rem_to] *)
Definition rem_to (m : build) (lhs rhs res : fd) : outcome (result unit * fd) :=
  let res_neg := is_neg lhs in
  o <- rem_abs m lhs rhs res ;; finish_sign o res_neg.

(** The scratch value of the operator impls (src/arith.rs:109-113 etc.). *)
Definition op_res : fd := mkfd 0 0 zero_units.

(** [if let Err(e) = ... { panic!(...) }; res] *)
Definition unwrap_op (o : outcome (result unit * fd)) : outcome fd :=
  '(rs, res) <- o ;;
  match rs with Ok _ => Ret res | Err _ => Panic POperator end.

(** src/arith.rs:104-119, [impl Add] *)
Definition op_add (m : build) (a b : fd) : outcome fd := unwrap_op (add_to m a b op_res).
(** src/arith.rs:121-136, [impl Sub] *)
Definition op_sub (m : build) (a b : fd) : outcome fd := unwrap_op (sub_to m a b op_res).
(** src/arith.rs:138-153, [impl Mul] *)
Definition op_mul (m : build) (a b : fd) : outcome fd := unwrap_op (mul_to m a b op_res).
(** src/arith.rs:155-170, [impl Div] *)
Definition op_div (m : build) (a b : fd) : outcome fd :=
  unwrap_op (div_to m a b op_res DIV_INCR_FRAC).
(** src/arith.rs:172-187, [impl Rem] *)
Definition op_rem (m : build) (a b : fd) : outcome fd := unwrap_op (rem_to m a b op_res).
