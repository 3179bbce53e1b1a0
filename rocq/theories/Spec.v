(** * The specification: what a decimal means.

    Nothing here mentions a function of the model; only the record [fd]
    (three fields) is shared.  The properties are stated in these terms. *)
From Coq Require Import ZArith List Bool QArith Qabs Qround.
Import ListNotations.
From Verif Require Import Model_Base.
Open Scope Z_scope.

(** ** The number a decimal denotes *)

(** Units are base-10^9 digits, least significant first. *)
Definition base : Z := 1000000000.

Fixpoint units_value (l : list Z) : Z :=
  match l with
  | [] => 0
  | u :: t => u + base * units_value t
  end.

(** Number of units that hold [digits] decimal digits. *)
Definition units_for (digits : Z) : Z := (digits + 8) / 9.

(** The field [intg] holds the number of integral digits in its low seven bits
    and the sign in its high bit; as a two's complement value, the sign is
    the sign. *)
Definition neg (d : fd) : bool := fd_intg d <? 0.
Definition int_digits (d : fd) : Z := fd_intg d mod 128.
Definition frac_digits (d : fd) : Z := fd_frac d.

Definition iu (d : fd) : Z := units_for (int_digits d).
Definition fu (d : fd) : Z := units_for (frac_digits d).

(** The absolute value, in units of 10^(-9 fu). *)
Definition magnitude (d : fd) : Z :=
  units_value (firstn (Z.to_nat (iu d + fu d)) (fd_lsu d)).

(** The number. *)
Definition value (d : fd) : Q :=
  Qmake (if neg d then - magnitude d else magnitude d) (Z.to_pos (base ^ fu d)).

(** ** Well-formedness *)

(** The Rust type gives the length, the i8 ranges; the rest is the invariant:
    units in range, the declared digits fit in nine units. *)
Record wf (d : fd) : Prop := mkwf {
  wf_len : length (fd_lsu d) = 9%nat;
  wf_units : Forall (fun u => 0 <= u < base) (fd_lsu d);
  wf_intg : -128 <= fd_intg d < 128;
  wf_frac : 0 <= fd_frac d;
  wf_fit : iu d + fu d <= 9 }.

(** No digits are stored in units beyond the declared ones. *)
Definition clean (d : fd) : Prop :=
  Forall (fun u => u = 0) (skipn (Z.to_nat (iu d + fu d)) (fd_lsu d)).

(** The integral part has no more digits than declared. *)
Definition tight (d : fd) : Prop :=
  magnitude d < 10 ^ (int_digits d) * base ^ fu d.

(** No digits are stored beyond the declared fractional digits. *)
Definition nohidden (d : fd) : Prop :=
  magnitude d mod 10 ^ (9 * fu d - frac_digits d) = 0.

(** A zero with the sign flag set. *)
Definition negzero (d : fd) : Prop := neg d = true /\ value d == 0.

(** ** Rounding *)

(** Nearest integer, halves away from zero. *)
Definition round_away (q : Q) : Z :=
  if Qle_bool 0 q then Qfloor (q + (1 # 2)) else - Qfloor (- q + (1 # 2)).

(** Towards zero. *)
Definition truncate (q : Q) : Z :=
  if Qle_bool 0 q then Qfloor q else - Qfloor (- q).

Definition pow10 (e : Z) : Q := Qpower (inject_Z 10) e.

(** Rounded (halves away from zero) and truncated to [f] fractional digits;
    [f] may be negative. *)
Definition round_at (q : Q) (f : Z) : Q := inject_Z (round_away (q * pow10 f)) * pow10 (- f).
Definition truncate_at (q : Q) (f : Z) : Q := inject_Z (truncate (q * pow10 f)) * pow10 (- f).

(** ** Numerals *)

(** The value of a list of decimal digits, most significant first. *)
Definition digits_value (ds : list Z) : Z := fold_left (fun a x => 10 * a + x) ds 0.

(** The parts of a numeral: optional sign ([Some true] is '-', [Some false] is
    '+'), integral digits, whether there is a point, fractional digits, and
    an optional exponent: mark ('e' or 'E'), sign, digits. *)
Record numeral := mknum {
  n_sign : option bool;
  n_int : list Z;
  n_point : bool;
  n_frac : list Z;
  n_exp : option (bool * option bool * list Z) }.

Definition digit_byte (x : Z) : Z := 48 + x.
Definition sign_bytes (s : option bool) : list Z :=
  match s with Some true => [45] | Some false => [43] | None => [] end.

(** The byte string of a numeral. *)
Definition numeral_bytes (n : numeral) : list Z :=
  sign_bytes (n_sign n)
  ++ map digit_byte (n_int n)
  ++ (if n_point n then [46] else [])
  ++ map digit_byte (n_frac n)
  ++ match n_exp n with
     | None => []
     | Some (upper, s, ds) => (if upper : bool then 69 else 101) :: sign_bytes s ++ map digit_byte ds
     end.

Definition is_digit (x : Z) : Prop := 0 <= x <= 9.

Definition numeral_ok (n : numeral) : Prop :=
  Forall is_digit (n_int n) /\ Forall is_digit (n_frac n)
  /\ n_int n ++ n_frac n <> []
  /\ (n_point n = false -> n_frac n = [])
  /\ match n_exp n with
     | None => True
     | Some (_, _, ds) => Forall is_digit ds /\ ds <> []
     end.

Definition is_minus (s : option bool) : bool := match s with Some true => true | _ => false end.

Definition numeral_exp (n : numeral) : Z :=
  match n_exp n with
  | None => 0
  | Some (_, s, ds) => if is_minus s then - digits_value ds else digits_value ds
  end.

Definition zlength {A} (l : list A) : Z := Z.of_nat (length l).

(** The number a numeral denotes. *)
Definition numeral_value (n : numeral) : Q :=
  (if is_minus (n_sign n) then - inject_Z (digits_value (n_int n ++ n_frac n))
   else inject_Z (digits_value (n_int n ++ n_frac n)))
  * pow10 (numeral_exp n - zlength (n_frac n)).

(** Fractional and total digits once the exponent has been applied. *)
Definition numeral_frac (n : numeral) : Z := Z.max 0 (zlength (n_frac n) - numeral_exp n).
Definition numeral_digits (n : numeral) : Z :=
  Z.max (zlength (n_int n ++ n_frac n) + Z.max 0 (numeral_exp n - zlength (n_frac n)))
        (numeral_frac n).

(** The limits of the parser: the exponent, and the digits after applying it. *)
Definition within_limits (n : numeral) : Prop :=
  -30 <= numeral_exp n <= 65 /\ numeral_digits n <= 65.

(** The bytes before the first 'e' or 'E', and the digits among them. *)
Fixpoint before_exp (bs : list Z) : list Z :=
  match bs with
  | [] => []
  | c :: t => if (c =? 69) || (c =? 101) then [] else c :: before_exp t
  end.
Definition count_digits (bs : list Z) : Z :=
  zlength (filter (fun c => (48 <=? c) && (c <=? 57)) bs).
Definition mantissa_digits (bs : list Z) : Z := count_digits (before_exp bs).
(** The bytes from the first 'e' or 'E' on. *)
Definition exp_length (bs : list Z) : Z := zlength bs - zlength (before_exp bs).

(** ** Canonical numerals *)

(** No '+', at least one integral digit, no superfluous leading zero, a point
    exactly when there are fractional digits, no exponent. *)
Definition canonical (n : numeral) : Prop :=
  numeral_ok n /\ n_sign n <> Some false /\ n_exp n = None
  /\ n_int n <> [] /\ (hd 1 (n_int n) = 0 -> n_int n = [0])
  /\ (n_point n = true <-> n_frac n <> []).

(** ** Products *)

(** The units a product is given: as many integral units as the declared
    integral digits of the operands need together, and as many fractional
    units as their fractional digits need together, but at most four, and at
    most what the nine units leave. *)
Definition product_int_units (a b : fd) : Z := units_for (int_digits a + int_digits b).
Definition product_frac_units (a b : fd) : Z :=
  Z.min 4 (Z.min (units_for (frac_digits a + frac_digits b)) (9 - product_int_units a b)).
(** The fractional units of the full product that are dropped. *)
Definition product_lost_units (a b : fd) : Z := fu a + fu b - product_frac_units a b.

(** All digits of the product fit: nothing has to be dropped. *)
Definition product_fits (a b : fd) : Prop :=
  units_for (frac_digits a + frac_digits b) <= 4 /\
  units_for (int_digits a + int_digits b) + units_for (frac_digits a + frac_digits b) <= 9.

(** ** Divisors *)

(** All non-zero units of the decimal are among [n] consecutive ones. *)
Definition significant_units (n : Z) (d : fd) : Prop :=
  exists x k, 0 < x < base ^ n /\ 0 <= k /\ magnitude d = x * base ^ k.

(** The leading digit of a non-zero decimal stands for [p]-th powers of ten. *)
Definition leading_digit (d : fd) (p : Z) : Prop :=
  (pow10 p <= Qabs (value d))%Q /\ (Qabs (value d) < pow10 (p + 1))%Q.

(** The counts of digits a division works with stay within the range of an i8
    ([incr] more fractional digits are asked for). It holds for all operands of
    at most 36 fractional and 81 integral digits if [incr] is at most 47. *)
Definition div_room (a b : fd) (incr : Z) : Prop :=
  iu a + fu b <= 13 /\ fu a + iu b <= 13 /\ fu a + fu b <= 13 /\ frac_digits a + frac_digits b + incr <= 119.

(** A division is not asked for an absurd number of fractional digits: at most
    247 with those of the operands (at most 85 more are always sane, decimals having at most
    81 fractional digits; beyond 247 the code's count wraps around). *)
Definition sane_request (a b : fd) (incr : Z) : Prop := frac_digits a + frac_digits b + incr <= 247.

(** ** Long division *)

(** The absolute value in units of 10^-81. *)
Definition scaled (d : fd) : Z := magnitude d * base ^ (9 - fu d).

(** Long division finds the quotient of [x] and [y] unit by unit from the top:
    the unit [j] is the quotient of what remains, [x mod (y * base^(j+1))], and
    [y * base^j]. *)
Definition rest (x y j : Z) : Z := x mod (y * base ^ (j + 1)).
Definition quotient_unit (x y j : Z) : Z := rest x y j / (y * base ^ j).

(** It guesses this unit from the leading units of both, after multiplying
    them by a factor that makes the leading unit of the divisor (of [len] units) large:
    first from two units and one, then from three units and two. *)
Definition norm_factor (y len : Z) : Z := base / (y / base ^ (len - 1) + 1).
Definition first_guess (x y len j : Z) : Z :=
  let f := norm_factor y len in f * rest x y j / base ^ (j + len - 1) / (f * y / base ^ (len - 1)).
Definition second_guess (x y len j : Z) : Z :=
  let f := norm_factor y len in f * rest x y j / base ^ (j + len - 2) / (f * y / base ^ (len - 2)).

(** All units that long division guesses are guessed right. *)
Definition guesses_right (x y : Z) : Prop := forall len j,
  2 <= len -> base ^ (len - 1) <= y < base ^ len -> 0 <= j -> y * base ^ j <= x ->
  second_guess x y len j = quotient_unit x y j.
(** All first guesses are units. *)
Definition guesses_small (x y : Z) : Prop := forall len j,
  2 <= len -> base ^ (len - 1) <= y < base ^ len -> 0 <= j -> y * base ^ j <= x ->
  first_guess x y len j < base.

(** A regular decimal: nine units below 10^9, nothing stored beyond the
    declared units, no more significant digits than declared on either side of
    the point. This is what parsing and the integer conversions produce. *)
Definition regular (d : fd) : Prop := wf d /\ clean d /\ tight d /\ nohidden d.

(** The same decimal with the other sign. *)
Definition flip (d : fd) : fd :=
  mkfd (if neg d then fd_intg d + 128 else fd_intg d - 128) (fd_frac d) (fd_lsu d).
