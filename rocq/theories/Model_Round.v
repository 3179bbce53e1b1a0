(** * Model of src/round.rs. *)
From Coq Require Import ZArith List Bool.
Import ListNotations.
From Verif Require Import Rust Tables Model_Base.
Open Scope Z_scope.

(** src/arith.rs:936-944, [add_with_carry] (used by round.rs as well). *)
Definition add_with_carry (m : build) (a b carry : Z) : outcome (Z * Z) :=
  t <- i32 m (a + b) ;;
  r <- i32 m (t + carry) ;;
  if r >=? UNIT then
    r' <- i32 m (r - UNIT) ;; Ret (r', 1)
  else Ret (r, 0).

(** One arm of the match at src/round.rs:172-233: [let r = u % md; u -= r;
    if r >= half { u += md }]. *)
Definition round_arm (m : build) (u md half : Z) : outcome Z :=
  r <- i32_rem m u md ;;
  u <- i32 m (u - r) ;;
  if r >=? half then i32 m (u + md) else Ret u.

(** src/round.rs:172-233, the match on [round_pos]. *)
Definition round_unit (m : build) (round_pos u : Z) : outcome Z :=
  match round_pos with
  | 1 => round_arm m u 10 5
  | 2 => round_arm m u 100 50
  | 3 => round_arm m u 1000 500
  | 4 => round_arm m u 10000 5000
  | 5 => round_arm m u 100000 50000
  | 6 => round_arm m u 1000000 500000
  | 7 => round_arm m u 10000000 5000000
  | 8 => round_arm m u 100000000 50000000
  | _ => Panic PUnreachable
  end.

(** src/round.rs:244-251, propagation of the carry through
    [fd.lsu[round_idx..end_idx]], [n] units from index [i] on. *)
Fixpoint carry_loop (m : build) (n : nat) (l : list Z) (i carry : Z) : outcome (list Z * Z) :=
  match n with
  | O => Ret (l, carry)
  | S n' =>
      u <- get l i ;;
      '(r0, c0) <- add_with_carry m u 0 carry ;;
      l <- set l i r0 ;;
      if c0 =? 0 then Ret (l, c0) else carry_loop m n' l (i + 1) c0
  end.

(** src/round.rs:159-265, [round_half_up] *)
Definition round_half_up (m : build) (d : fd) (intg_units frac_units trunc round_frac carry : Z)
  : outcome fd :=
  round_idx <- div9 (as_i8 trunc) ;;
  round_pos <- mod9 (as_i8 trunc) ;;
  let clear_idx := round_idx in
  '(l, round_idx, carry) <-
    (if negb (round_pos =? 0) then
       u <- get (fd_lsu d) round_idx ;;
       u <- round_unit m round_pos u ;;
       '(u, carry) <-
         (if u >=? UNIT then u' <- i32 m (u - UNIT) ;; Ret (u', 1) else Ret (u, carry)) ;;
       l <- set (fd_lsu d) round_idx u ;;
       Ret (l, round_idx + 1, carry)
     else Ret (fd_lsu d, round_idx, carry)) ;;
  let end_idx := intg_units + frac_units in
  '(l, intg_units) <-
    (if carry >? 0 then
       _ <- slice l round_idx end_idx ;;
       '(l, carry) <- carry_loop m (Z.to_nat (end_idx - round_idx)) l round_idx carry ;;
       if carry >? 0 then
         l <- set l end_idx 1 ;; Ret (l, intg_units + 1)
       else Ret (l, intg_units)
     else Ret (l, intg_units)) ;;
  l <- fill l 0 clear_idx 0 ;;
  let neg := is_neg d in
  let d := mkfd (as_i8 (intg_units * DIGITS_PER_UNIT)) round_frac l in
  Ret (if neg then set_neg d else d).

(** src/round.rs:13-82, [round] (in place).  [frac : isize] is an arbitrary
    64-bit argument of the caller; the remaining index arithmetic is exact. *)
Definition round (m : build) (self : fd) (fr : Z) : outcome fd :=
  let this_frac := frac self in
  iu <- intg_units m self ;;
  fu <- frac_units m self ;;
  if fr >=? this_frac then
    rfu <- get_units m (as_i8 fr) ;;
    if rfu =? fu then Ret (mkfd (fd_intg self) (as_i8 fr) (fd_lsu self))
    else
      dest <- usize m (rfu - fu) ;;
      l <- copy_within (fd_lsu self) 0 (fu + iu) dest ;;
      Ret (mkfd (fd_intg self) (as_i8 fr) l)
  else if fr <? 0 then
    ig <- isize m (- fr) ;;
    ig1 <- isize m (ig + 1) ;;
    if ig1 >? intg self then Ret (set_zero self)
    else
      l <- copy_within (fd_lsu self) fu (fu + iu) 0 ;;
      l <- fill l iu (fu + iu) 0 ;;
      round_half_up m (mkfd (fd_intg self) (fd_frac self) l) iu 0 ig 0 0
  else
    let round_frac := as_i8 fr in
    f1 <- i8 m (as_i8 fr + 1) ;;
    rfu <- get_units m f1 ;;
    md <- mod9 (as_i8 fr) ;;
    '(l, fu, carry) <-
      (if rfu <? fu then
         '(rfu, carry) <-
           (if md =? 0 then
              u <- get (fd_lsu self) (fu - rfu) ;;
              Ret (rfu - 1, if u >=? HALF_UNIT then 1 else 0)
            else Ret (rfu, 0)) ;;
         l <- copy_within (fd_lsu self) (fu - rfu) (fu + iu) 0 ;;
         l <- fill l (rfu + iu) (fu + iu) 0 ;;
         Ret (l, rfu, carry)
       else
         _ <- debug_assert m (rfu =? fu) ;;
         if md =? 0 then
           u <- get (fd_lsu self) 0 ;;
           l <- copy_within (fd_lsu self) 1 (fu + iu) 0 ;;
           l <- set l (fu + iu - 1) 0 ;;
           Ret (l, fu - 1, if u >=? HALF_UNIT then 1 else 0)
         else Ret (fd_lsu self, fu, 0)) ;;
    let trunc := fu * DIGITS_PER_UNIT - fr in
    round_half_up m (mkfd (fd_intg self) (fd_frac self) l) iu fu trunc round_frac carry.

(** src/round.rs:84-156, [round_to]: returns the new value of [res].  The
    value [res] had before is overwritten at line 86 ([set_zero]). *)
Definition round_to (m : build) (self : fd) (res : fd) (fr : Z) : outcome fd :=
  let res := set_zero res in
  let res := mkfd (fd_intg self) (fd_frac res) (fd_lsu res) in
  let this_frac := frac self in
  iu <- intg_units m self ;;
  fu <- frac_units m self ;;
  if fr >=? this_frac then
    rfu <- get_units m (as_i8 fr) ;;
    if rfu =? fu then Ret (mkfd (fd_intg self) (as_i8 fr) (fd_lsu self))
    else
      start <- usize m (rfu - fu) ;;
      s <- slice (fd_lsu self) 0 (fu + iu) ;;
      l <- write_slice (fd_lsu res) start (rfu + iu) s ;;
      Ret (mkfd (fd_intg self) (as_i8 fr) l)
  else if fr <? 0 then
    ig <- isize m (- fr) ;;
    ig1 <- isize m (ig + 1) ;;
    if ig1 >? intg self then Ret (set_zero res)
    else
      s <- slice (fd_lsu self) fu (fu + iu) ;;
      l <- write_slice (fd_lsu res) 0 iu s ;;
      round_half_up m (mkfd (fd_intg res) (fd_frac res) l) iu 0 ig 0 0
  else
    let round_frac := as_i8 fr in
    f1 <- i8 m (as_i8 fr + 1) ;;
    rfu <- get_units m f1 ;;
    md <- mod9 (as_i8 fr) ;;
    '(l, fu, carry) <-
      (if rfu <? fu then
         '(rfu, carry) <-
           (if md =? 0 then
              u <- get (fd_lsu self) (fu - rfu) ;;
              Ret (rfu - 1, if u >=? HALF_UNIT then 1 else 0)
            else Ret (rfu, 0)) ;;
         s <- slice (fd_lsu self) (fu - rfu) (fu + iu) ;;
         l <- write_slice (fd_lsu res) 0 (rfu + iu) s ;;
         Ret (l, rfu, carry)
       else
         _ <- debug_assert m (rfu =? fu) ;;
         if md =? 0 then
           u <- get (fd_lsu self) 0 ;;
           s <- slice (fd_lsu self) 1 (fu + iu) ;;
           l <- write_slice (fd_lsu res) 0 (fu + iu - 1) s ;;
           Ret (l, fu - 1, if u >=? HALF_UNIT then 1 else 0)
         else Ret (fd_lsu self, fu, 0)) ;;
    let trunc := fu * DIGITS_PER_UNIT - fr in
    round_half_up m (mkfd (fd_intg res) (fd_frac res) l) iu fu trunc round_frac carry.
