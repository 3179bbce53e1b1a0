(** * Model of src/serde.rs.

    A byte string is a list of integers 0..255.  Positions in the input
    (isize) are exact: a slice has at most isize::MAX bytes. *)
From Coq Require Import ZArith List Bool.
Import ListNotations.
From Verif Require Import Rust Tables Model_Base.
Open Scope Z_scope.

(** ** Parsing *)

(** ASCII codes used by the parser. *)
Definition c0 : Z := 48.      (* b'0' *)
Definition c9 : Z := 57.      (* b'9' *)
Definition cdot : Z := 46.    (* b'.' *)
Definition cminus : Z := 45.  (* b'-' *)
Definition cplus : Z := 43.   (* b'+' *)
Definition ce : Z := 101.     (* b'e' *)
Definition cE : Z := 69.      (* b'E' *)

(** The variables the scan of src/serde.rs:23-63 leaves behind. *)
Record scan := mkscan {
  s_i : Z; s_d : Z; s_dotchar : Z; s_last : Z; s_cfirst : Z; s_neg : bool; s_more : bool }.

(** src/serde.rs:31-63; [i] is the value before the increment of line 32;
    [d] is an i8 (it is compared with [frac : i8] at line 141). *)
Fixpoint scan_loop (m : build) (bs : list Z) (i d dotchar last cfirst : Z) (neg : bool)
  : outcome scan :=
  match bs with
  | [] => Ret (mkscan i d dotchar last cfirst neg false)
  | c :: bs' =>
      let i := i + 1 in
      if (c >=? c0) && (c <=? c9) then
        d <- i8 m (d + 1) ;;
        scan_loop m bs' i d dotchar i cfirst neg
      else if (c =? cdot) && (dotchar =? -1) then
        scan_loop m bs' i d i last (if i =? cfirst then cfirst + 1 else cfirst) neg
      else if (i =? 0) && (c =? cminus) then
        scan_loop m bs' i d dotchar last (cfirst + 1) true
      else if (i =? 0) && (c =? cplus) then
        scan_loop m bs' i d dotchar last (cfirst + 1) neg
      else Ret (mkscan i d dotchar last cfirst neg true)
  end.

(** src/serde.rs:96-104, skipping zeroes of the exponent, [n = len - 1 - i]. *)
Fixpoint strip_zeroes (n : nat) (bs : list Z) (i : Z) : outcome Z :=
  c <- get bs i ;;
  match n with
  | O => Ret i
  | S n' => if c =? c0 then strip_zeroes n' bs (i + 1) else Ret i
  end.

(** src/serde.rs:106-113; [None] is the error return of line 109. *)
Fixpoint exp_digits (m : build) (bs : list Z) (exp : Z) : outcome (option Z) :=
  match bs with
  | [] => Ret (Some exp)
  | c :: bs' =>
      if (c <? c0) || (c >? c9) then Ret None
      else
        t <- i32 m (exp * 10) ;;
        t <- i32 m (t + c) ;;
        exp <- i32 m (t - c0) ;;
        exp_digits m bs' exp
  end.

(** src/serde.rs:69-124, the exponent; [i] is the position of the first byte
    that is not part of the mantissa.  [None] is [Err(ConversionSyntax)]. *)
Definition parse_exp (m : build) (bs : list Z) (i : Z) : outcome (option Z) :=
  c <- get bs i ;;
  if negb (c =? ce) && negb (c =? cE) then Ret None
  else
    let i := i + 1 in
    if i =? zlen bs then Ret None
    else
      c <- get bs i ;;
      let nege := c =? cminus in
      let signed := nege || (c =? cplus) in
      let i := if signed then i + 1 else i in
      if signed && (i =? zlen bs) then Ret None
      else
        i <- strip_zeroes (Z.to_nat (zlen bs - 1 - i)) bs i ;;
        let firstexp := i in
        s <- slice bs i (zlen bs) ;;
        e <- exp_digits m s 0 ;;
        match e with
        | None => Ret None
        | Some exp =>
            let i := zlen bs in
            if i >=? firstexp + 4 then Ret None
            else if (negb nege && (as_usize exp >? MAX_DIGITS))
                    || (nege && (as_usize exp >? MAX_FRAC)) then Ret None
            else if nege then e <- i32 m (- exp) ;; Ret (Some e)
            else Ret (Some exp)
        end.

(** src/serde.rs:134-156: the number of fractional digits, of digits, and of
    zeroes to insert after the point. *)
Definition layout (m : build) (frac_digits exp d : Z) : outcome (Z * Z * Z) :=
  frac <- i8 m (as_i8 frac_digits - as_i8 exp) ;;
  match frac ?= 0 with
  | Eq => Ret (frac, d, 0)
  | Gt =>
      if d >? frac then Ret (frac, d, 0)
      else hz <- i8 m (frac - d) ;; Ret (frac, frac, hz)
  | Lt => digits <- i8 m (d - frac) ;; Ret (0, digits, 0)
  end.

(** src/serde.rs:172-196, the integral digits.  State: parse position, unit
    accumulator, digits left, unit index, units. *)
Fixpoint intg_loop (m : build) (fuel : nat) (bs : list Z) (last i out cut up : Z) (l : list Z)
  : outcome (Z * Z * Z * Z * list Z) :=
  match fuel with
  | O => Panic PFuel
  | S fuel' =>
      c <- get bs i ;;
      if c =? cdot then intg_loop m fuel' bs last (i + 1) out cut up l
      else
        t <- i32 m (out * 10) ;;
        t <- i32 m (t + c) ;;
        out <- i32 m (t - c0) ;;
        cut <- i8 m (cut - 1) ;;
        if cut =? 0 then Ret (i, out, cut, up, l)
        else if i =? last then Ret (i, out, cut, up, l)
        else
          md <- mod9 cut ;;
          if md >? 0 then intg_loop m fuel' bs last (i + 1) out cut up l
          else
            l <- set l up out ;;
            intg_loop m fuel' bs last (i + 1) 0 cut (up - 1) l
  end.

(** src/serde.rs:205-209 *)
Fixpoint zero_fill (m : build) (fuel : nat) (l : list Z) (up cut : Z) : outcome (list Z * Z) :=
  match fuel with
  | O => Panic PFuel
  | S fuel' =>
      if cut >? 0 then
        l <- set l up 0 ;;
        cut <- i8 m (cut - DIGITS_PER_UNIT) ;;
        zero_fill m fuel' l (up - 1) cut
      else Ret (l, up)
  end.

(** src/serde.rs:214-219 *)
Fixpoint heading_fill (m : build) (fuel : nat) (l : list Z) (up hz : Z) : outcome (list Z * Z * Z) :=
  match fuel with
  | O => Panic PFuel
  | S fuel' =>
      if hz >=? DIGITS_PER_UNIT then
        l <- set l up 0 ;;
        hz <- i8 m (hz - DIGITS_PER_UNIT) ;;
        heading_fill m fuel' l (up - 1) hz
      else Ret (l, up, hz)
  end.

(** src/serde.rs:223-245, the fractional digits. *)
Fixpoint frac_loop (m : build) (fuel : nat) (bs : list Z) (last i out cut up : Z) (l : list Z)
  : outcome (Z * Z * list Z) :=
  match fuel with
  | O => Panic PFuel
  | S fuel' =>
      c <- get bs i ;;
      if c =? cdot then frac_loop m fuel' bs last (i + 1) out cut up l
      else
        cut <- i8 m (cut - 1) ;;
        t <- i32 m (c - c0) ;;
        p <- get POW10 cut ;;
        t <- i32 m (t * p) ;;
        out <- i32 m (out + t) ;;
        if i =? last then Ret (out, up, l)
        else if cut >? 0 then frac_loop m fuel' bs last (i + 1) out cut up l
        else
          l <- set l up out ;;
          frac_loop m fuel' bs last (i + 1) 0 DIGITS_PER_UNIT (up - 1) l
  end.

(** Fuel of the two short fill loops; [cut] and [heading_zeroes] are i8. *)
Definition fill_fuel : nat := 20.

(** src/serde.rs:162-253, the conversion proper, after the syntax is known to
    be good. *)
Definition convert (m : build) (self : fd) (bs : list Z) (s : scan) (frac digits hz : Z)
  : outcome fd :=
  ig <- i8 m (digits - frac) ;;
  iu <- get_units m ig ;;
  fu <- get_units m frac ;;
  up <- usize m (iu + fu - 1) ;;
  let up := as_isize up in
  let i := s_cfirst s in
  let fuel := S (length bs) in
  '(l, up, i) <-
    (if iu >? 0 then
       cut <- i8 m (digits - frac) ;;
       '(i, out, cut, up, l) <- intg_loop m fuel bs (s_last s) i 0 cut up (fd_lsu self) ;;
       let i := i + 1 in
       re <- mod9 cut ;;
       p <- get POW10 re ;;
       v <- i32 m (out * p) ;;
       l <- set l up v ;;
       cut <- i8 m (cut - as_i8 re) ;;
       '(l, up) <- zero_fill m fill_fuel l (up - 1) cut ;;
       Ret (l, up, i)
     else Ret (fd_lsu self, up, i)) ;;
  l <-
    (if fu >? 0 then
       '(l, up, hz) <- heading_fill m fill_fuel l up hz ;;
       cut <- i8 m (DIGITS_PER_UNIT - hz) ;;
       '(out, up, l) <- frac_loop m fuel bs (s_last s) i 0 cut up l ;;
       set l up out
     else Ret l) ;;
  ig <- i8 m (digits - frac) ;;
  let d := mkfd ig frac l in
  Ret (if s_neg s then set_neg d else d).

(** src/serde.rs:16-254, [from_bytes_str]: the result and the new value of
    [self]. *)
Definition from_bytes_str (m : build) (self : fd) (bs : list Z) (reset : bool)
  : outcome (result unit * fd) :=
  let self := if reset then set_zero self else self in
  match bs with
  | [] => Ret (Err ConversionSyntax, self)
  | _ =>
      s <- scan_loop m bs (-1) 0 (-1) (-1) 0 false ;;
      if s_last s =? -1 then Ret (Err ConversionSyntax, self)
      else
        e <- (if s_more s then parse_exp m bs (s_i s) else Ret (Some 0)) ;;
        match e with
        | None => Ret (Err ConversionSyntax, self)
        | Some exp =>
            let frac_digits :=
              if (s_dotchar s =? -1) || (s_last s <? s_dotchar s) then 0
              else s_last s - s_dotchar s in
            '(frac, digits, hz) <- layout m frac_digits exp (s_d s) ;;
            if as_usize digits >? MAX_DIGITS then Ret (Err ConversionSyntax, self)
            else
              d <- convert m self bs s frac digits hz ;;
              Ret (Ok tt, d)
        end
  end.

(** src/serde.rs:10-12, [from_ascii_str]: the bytes of the string. *)
Definition from_ascii_str := from_bytes_str.

(** src/serde.rs:448-456, [FromStr::from_str] *)
Definition from_str (m : build) (bs : list Z) : outcome (result fd) :=
  '(r, d) <- from_ascii_str m zero bs false ;;
  match r with Ok _ => Ret (Ok d) | Err e => Ret (Err e) end.

(** ** Formatting *)

(** src/serde.rs:290-306, one integral unit in three groups of three digits. *)
Definition intg_unit (m : build) (u : Z) (buf : list Z) (elim : bool) : outcome (list Z * bool) :=
  '(buf, elim, u) <-
    (if u >=? BIN_HIGH_UNIT then
       high <- i32_div m u BIN_HIGH_UNIT ;;
       '(buf, elim) <- d3_to_str high buf elim ;;
       t <- i32 m (high * BIN_HIGH_UNIT) ;;
       u <- i32 m (u - t) ;;
       Ret (buf, elim, u)
     else
       '(buf, elim) <- d3_to_str 0 buf elim ;;
       Ret (buf, elim, u)) ;;
  '(buf, elim, u) <-
    (if u >=? BIN_MID_UNIT then
       mid <- i32_div m u BIN_MID_UNIT ;;
       '(buf, elim) <- d3_to_str mid buf elim ;;
       t <- i32 m (mid * BIN_MID_UNIT) ;;
       u <- i32 m (u - t) ;;
       Ret (buf, elim, u)
     else
       '(buf, elim) <- d3_to_str 0 buf elim ;;
       Ret (buf, elim, u)) ;;
  d3_to_str u buf elim.

(** src/serde.rs:281-307, the integral units from index [up] down, [n] of them. *)
Fixpoint append_intg (m : build) (n : nat) (l : list Z) (up : Z) (buf : list Z) (elim : bool)
  : outcome (list Z * bool) :=
  match n with
  | O => Ret (buf, elim)
  | S n' =>
      u <- get l up ;;
      if elim && (u =? 0) then append_intg m n' l (up - 1) buf elim
      else
        '(buf, elim) <- intg_unit m u buf elim ;;
        append_intg m n' l (up - 1) buf elim
  end.

(** [for _ in 0..k { buf.push(b'0') }] *)
Definition push_zeroes (buf : list Z) (k : Z) : list Z := buf ++ repeat c0 (Z.to_nat k).

(** src/serde.rs:380-405 and 407-432: one of the two upper groups of three
    fractional digits, with [dv] = BIN_HIGH_UNIT or BIN_MID_UNIT; the boolean
    says that the function returned. *)
Definition frac_group (m : build) (dv u fdg : Z) (buf : list Z) : outcome (list Z * Z * Z * bool) :=
  if u >=? dv then
    high <- i32_div m u dv ;;
    let start_idx := high * 4 + 1 in
    if fdg <? 3 then
      s <- slice BIN2CHAR start_idx (start_idx + fdg) ;;
      Ret (buf ++ s, fdg, u, true)
    else
      s <- slice BIN2CHAR start_idx (start_idx + 3) ;;
      let buf := buf ++ s in
      fdg <- i8 m (fdg - 3) ;;
      if fdg =? 0 then Ret (buf, fdg, u, true)
      else
        t <- i32 m (high * dv) ;;
        u <- i32 m (u - t) ;;
        Ret (buf, fdg, u, false)
  else
    if fdg <? 3 then Ret (push_zeroes buf fdg, fdg, u, true)
    else
      let buf := buf ++ [c0; c0; c0] in
      fdg <- i8 m (fdg - 3) ;;
      Ret (buf, fdg, u, fdg =? 0).

(** src/serde.rs:354-445, [append_frac]; [n = up + 1] iterations at most. *)
Fixpoint append_frac (m : build) (n : nat) (l : list Z) (buf : list Z) (fdg : Z)
  : outcome (list Z) :=
  match n with
  | O => Ret buf
  | S n' =>
      if fdg =? 0 then Ret buf
      else
        u <- get l (Z.of_nat n') ;;
        if u =? 0 then
          if fdg >? DIGITS_PER_UNIT then
            let buf := buf ++ repeat c0 9 in
            fdg <- i8 m (fdg - DIGITS_PER_UNIT) ;;
            append_frac m n' l buf fdg
          else Ret (push_zeroes buf fdg)
        else
          '(buf, fdg, u, ret) <- frac_group m BIN_HIGH_UNIT u fdg buf ;;
          if ret : bool then Ret buf
          else
            '(buf, fdg, u, ret) <- frac_group m BIN_MID_UNIT u fdg buf ;;
            if ret : bool then Ret buf
            else
              let start_idx := u * 4 + 1 in
              if fdg <? 3 then
                s <- slice BIN2CHAR start_idx (start_idx + fdg) ;;
                Ret (buf ++ s)
              else
                s <- slice BIN2CHAR start_idx (start_idx + 3) ;;
                let buf := buf ++ s in
                fdg <- i8 m (fdg - 3) ;;
                if fdg =? 0 then Ret buf
                else append_frac m n' l buf fdg
  end.

(** src/serde.rs:271-352, [append_str_buf]: the new buffer. *)
Definition append_str_buf (m : build) (self : fd) (buf : list Z) (frac : Z) : outcome (list Z) :=
  let buf := if is_neg self then buf ++ [cminus] else buf in
  iu <- intg_units m self ;;
  fu <- frac_units m self ;;
  buf <-
    (if iu >? 0 then
       '(buf, elim) <- append_intg m (Z.to_nat iu) (fd_lsu self) (iu + fu - 1) buf true ;;
       Ret (if elim : bool then buf ++ [c0] else buf)
     else Ret (buf ++ [c0])) ;;
  (* here up = fu - 1 *)
  if frac =? 0 then Ret buf
  else if frac <? 0 then
    if fu >? 0 then append_frac m (Z.to_nat fu) (fd_lsu self) (buf ++ [cdot]) (fd_frac self)
    else Ret buf
  else if fu =? 0 then Ret (push_zeroes (buf ++ [cdot]) frac)
  else
    let full_frac_digits := fu * DIGITS_PER_UNIT in
    if frac <=? full_frac_digits then
      append_frac m (Z.to_nat fu) (fd_lsu self) (buf ++ [cdot]) (as_i8 frac)
    else
      buf <- append_frac m (Z.to_nat fu) (fd_lsu self) (buf ++ [cdot]) (as_i8 full_frac_digits) ;;
      Ret (push_zeroes buf (frac - full_frac_digits)).

(** src/serde.rs:260-265, [to_string]: the bytes of the returned String. *)
Definition to_string (m : build) (self : fd) (frac : Z) : outcome (list Z) :=
  append_str_buf m self [] frac.
