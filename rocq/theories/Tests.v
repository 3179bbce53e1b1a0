(** * The unit tests of the repository, replayed on the model.

    GENERATED by tools/gen_tests.py from the source text.  These are tests of
    the model's fidelity (the expected outputs are those the authors wrote for
    the real code), not proofs of properties.  Each table is checked in both
    build profiles. *)
From Coq Require Import ZArith List Bool String Ascii.
Import ListNotations.
From Verif Require Import Rust Tables Model_Base Model_Cmp Model_Round Model_Decimal Model_Arith Model_Serde.
Open Scope Z_scope.
Open Scope string_scope.

Fixpoint bytes (s : string) : list Z :=
  match s with
  | EmptyString => []
  | String a s' => Z.of_nat (nat_of_ascii a) :: bytes s'
  end.

Definition list_eqb (a b : list Z) : bool :=
  if list_eq_dec Z.eq_dec a b then true else false.

(** [fd.from_ascii_str(s, true)] on a used target. *)
Definition p (m : build) (s : string) : outcome fd :=
  '(r, d) <- from_ascii_str m one (bytes s) true ;;
  match r with Ok _ => Ret d | Err _ => Panic POperator end.

Definition is_true (o : outcome bool) : bool := match o with Ret b => b | Panic _ => false end.

Definition shows (m : build) (d : fd) (f : Z) (s : string) : outcome bool :=
  t <- to_string m d f ;; Ret (list_eqb t (bytes s)).

Definition check2 (f : build -> fd -> fd -> fd -> outcome (result unit * fd))
  (g : build -> fd -> fd -> outcome fd) (m : build) (t : string * string * string) : bool :=
  let '(a, b, c) := t in
  is_true (a <- p m a ;; b <- p m b ;;
           '(r, d) <- f m a b one ;;
           match r with
           | Err _ => Ret false
           | Ok _ => x <- shows m d (-1) c ;; e <- g m a b ;; y <- shows m e (-1) c ;; Ret (x && y)
           end).
Definition check_add := check2 add_to op_add.
Definition check_sub := check2 sub_to op_sub.
Definition check_mul := check2 mul_to op_mul.
Definition check_div := check2 (fun m a b r => div_to m a b r DIV_INCR_FRAC) op_div.
Definition check_rem := check2 rem_to op_rem.
Definition check_round (m : build) (t : string * Z * string) : bool :=
  let '(a, f, c) := t in
  is_true (a <- p m a ;; r <- round_to m a one f ;; x <- shows m r (-1) c ;;
           r <- round m a f ;; y <- shows m r (-1) c ;; Ret (x && y)).
Definition check_to_string (m : build) (t : string * Z * string) : bool :=
  let '(a, f, c) := t in is_true (a <- p m a ;; shows m a f c).
Definition check_parse_ok (m : build) (s : string) : bool :=
  is_true (_ <- p m s ;; Ret true).
Definition check_parse_err (m : build) (s : string) : bool :=
  is_true ('(r, _) <- from_ascii_str m one (bytes s) true ;;
           match r with Ok _ => Ret false | Err _ => Ret true end).
Definition check_cmp (m : build) (t : string * string * comparison) : bool :=
  let '(a, b, c) := t in
  is_true (a <- p m a ;; b <- p m b ;; r <- cmp m a b ;;
           Ret (match r, c with Eq, Eq | Lt, Lt | Gt, Gt => true | _, _ => false end)).
Definition fs (m : build) (s : string) : outcome fd :=
  r <- from_str m (bytes s) ;; match r with Ok d => Ret d | Err _ => Panic POperator end.
Definition check_from_i64 (m : build) (t : Z * string) : bool :=
  let '(i, s) := t in is_true (a <- from_i64 m i ;; b <- fs m s ;; eq m a b).
Definition check_from_u64 (m : build) (t : Z * string) : bool :=
  let '(i, s) := t in is_true (a <- from_u64 m i ;; b <- fs m s ;; eq m a b).
Definition check_to (f : build -> fd -> outcome (result Z)) (m : build) (t : string * Z) : bool :=
  let '(s, i) := t in
  is_true (a <- fs m s ;; r <- f m a ;; match r with Ok v => Ret (Z.eqb v i) | Err _ => Ret false end).
Definition check_to_err (f : build -> fd -> outcome (result Z)) (m : build) (s : string) : bool :=
  is_true (a <- fs m s ;; r <- f m a ;; match r with Ok v => Ret false | Err _ => Ret true end).
Definition check_to_i64 := check_to as_i64.
Definition check_to_u64 := check_to as_u64.
Definition check_to_i64_err := check_to_err as_i64.
Definition check_to_u64_err := check_to_err as_u64.
Definition hw_eqb (a b : hash_write) : bool :=
  match a, b with
  | WriteU8 x, WriteU8 y | WriteU32 x, WriteU32 y => Z.eqb x y
  | _, _ => false
  end.
Definition check_hash (m : build) (t : string * string) : bool :=
  let '(a, b) := t in
  is_true (a <- fs m a ;; b <- fs m b ;; x <- hash m a ;; y <- hash m b ;;
           Ret (Nat.eqb (List.length x) (List.length y) && forallb (fun q => hw_eqb (fst q) (snd q)) (combine x y))).
Definition check_uge (m : build) (t : list Z * list Z * bool) : bool :=
  let '(a, b, c) := t in Bool.eqb (units_greater_equal a b) c.

(** src/arith.rs:961, [test_add] *)
Definition test_add_cases : list (string * string * string) := [
  ("0", "0", "0");
  ("0", "1", "1");
  ("1", "1", "2");
  ("1", "-1", "0");
  ("-1", "1", "0");
  ("-1", "-100", "-101");
  ("5", "5", "10");
  ("1.0", "0", "1.0");
  ("1.0", "0.0", "1.0");
  ("-1.0", "0.01", "-0.99");
  ("-0.3", "1.27", "0.97");
  ("-0.3", "0.2", "-0.1");
  ("-0.01", "0.001", "-0.009");
  ("-123", "0.1", "-122.9");
  ("1", "-12.5", "-11.5");
  ("-5.0", "5.0", "0.0");
  ("1.0", "0.1", "1.1");
  ("1.01", "0.1", "1.11");
  ("1.00000000001", "1000.01", "1001.01000000001");
  ("1.234567890", "0.0000000001", "1.2345678901");
  ("-1.234567890", "0.0000000001", "-1.2345678899");
  ("10000000000", "1", "10000000001");
  ("1", "10000000000", "10000000001");
  ("999999999", "1", "1000000000");
  ("1", "999999999", "1000000000");
  ("999999999999999999", "1", "1000000000000000000");
  ("1", "999999999999999999", "1000000000000000000")
].
Example test_add_ok : forall m, forallb (check_add m) test_add_cases = true.
Proof. destruct m; vm_compute; reflexivity. Qed.

(** src/arith.rs:1014, [test_sub] *)
Definition test_sub_cases : list (string * string * string) := [
  ("0", "0", "0");
  ("0", "1", "-1");
  ("0", "-1", "1");
  ("-1", "0", "-1");
  ("1", "0", "1");
  ("1", "1", "0");
  ("1", "2", "-1");
  ("2", "1", "1");
  ("1", "-1", "2");
  ("-1", "1", "-2");
  ("-1", "-100", "99");
  ("1.0", "0", "1.0");
  ("1.0", "0.0", "1.0");
  ("-1.0", "0.01", "-1.01");
  ("-0.3", "1.27", "-1.57");
  ("-0.3", "-0.2", "-0.1");
  ("-0.3", "0.2", "-0.5");
  ("-0.01", "0.001", "-0.011");
  ("-123", "0.1", "-123.1");
  ("1", "-12.5", "13.5");
  ("-5.0", "5.0", "-10.0");
  ("1.0", "0.1", "0.9");
  ("1.01", "0.1", "0.91");
  ("1.00000000001", "1000.01", "-999.00999999999");
  ("1.234567890", "0.0000000001", "1.2345678899");
  ("-1.234567890", "0.0000000001", "-1.2345678901");
  ("1000000000", "1", "999999999");
  ("1", "1000000000", "-999999999")
].
Example test_sub_ok : forall m, forallb (check_sub m) test_sub_cases = true.
Proof. destruct m; vm_compute; reflexivity. Qed.

(** src/arith.rs:1068, [test_mul] *)
Definition test_mul_cases : list (string * string * string) := [
  ("0", "0", "0");
  ("0", "1", "0");
  ("1", "0", "0");
  ("1", "1", "1");
  ("1", "2", "2");
  ("2", "1", "2");
  ("1", "-1", "-1");
  ("-1", "1", "-1");
  ("-1", "-100", "100");
  ("1.0", "0", "0");
  ("1.0", "0.0", "0");
  ("-1.0", "0.01", "-0.010");
  ("-0.3", "1.27", "-0.381");
  ("-0.3", "-0.2", "0.06");
  ("-0.3", "0.2", "-0.06");
  ("-0.01", "0.001", "-0.00001");
  ("-0.10", "0.001", "-0.00010");
  ("-123", "0.1", "-12.3");
  ("1", "-12.5", "-12.5");
  ("-5.0", "5.0", "-25.00");
  ("1.0", "0.1", "0.10");
  ("1.01", "0.1", "0.101");
  ("1.00000000001", "1000.01", "1000.0100000100001");
  ("1.234567890", "0.0000000001", "0.0000000001234567890");
  ("-1.234567890", "0.0000000001", "-0.0000000001234567890")
].
Example test_mul_ok : forall m, forallb (check_mul m) test_mul_cases = true.
Proof. destruct m; vm_compute; reflexivity. Qed.

(** src/arith.rs:1119, [test_div] *)
Definition test_div_cases : list (string * string * string) := [
  ("0", "1", "0");
  ("1", "1", "1.000000000");
  ("1", "1", "1.000000000");
  ("1", "2", "0.500000000");
  ("2", "1", "2.000000000");
  ("1", "-1", "-1.000000000");
  ("-1", "1", "-1.000000000");
  ("-1", "-100", "0.010000000");
  ("100", "1", "100.000000000");
  ("100", "100", "1.000000000");
  ("0.000000002", "1", "0.000000002000000000");
  ("1.0", "2", "0.500000000");
  ("1.0", "2.0", "0.500000000000000000");
  ("-1", "0.01", "-100.000000000");
  ("0.27", "0.3", "0.900000000000000000");
  ("-0.3", "-0.2", "1.500000000000000000");
  ("0.3", "0.7", "0.428571428571428571");
  ("0.6", "0.9", "0.666666666666666666");
  ("-0.3", "0.2", "-1.500000000000000000");
  ("1000000000.1", "7", "142857142.871428571");
  ("1000000000.1", "9", "111111111.122222222");
  ("101000000000.1", "7", "14428571428.585714285");
  ("101000000000.1", "7.1", "14225352112.690140845070422535");
  ("101000000000.1", "5", "20200000000.020000000");
  ("101000000000.1", "5.0", "20200000000.020000000000000000");
  ("100.10000000001", "7", "14.300000000001428571");
  ("100.10000000001", "7.0", "14.300000000001428571428571428");
  ("100.1", "7.0000000001", "14.299999999795714285717204081");
  ("205.6", "9.5000000001", "21.642105262930083102495472809");
  ("2000000005.1", "7.5000000001", "266666667.343111111102091851851972108");
  ("1.2", "0.7", "1.714285714285714285");
  ("1.22", "0.77", "1.584415584415584415");
  ("1.222", "0.777", "1.572715572715572715");
  ("1.2222", "0.7777", "1.571557155715571557");
  ("1.22222", "0.77777", "1.571441428700001285");
  ("1.222222", "0.777777", "1.571429857144142858");
  ("1.2222222", "0.7777777", "1.571428700000012857");
  ("1.22222222", "0.77777777", "1.571428584285714414285715571");
  ("1.222222222", "0.777777777", "1.571428572714285715571428572");
  ("9.8", "1", "9.800000000");
  ("98.7", "1.2", "82.250000000000000000");
  ("987.6", "12.3", "80.292682926829268292");
  ("9876.5", "123.4", "80.036466774716369529");
  ("98765.4", "1234.5", "80.004374240583232077");
  ("987654.3", "12345.6", "80.000510303265940902");
  ("9876543.2", "123456.7", "80.000058320042573631");
  ("98765432.1", "1234567.8", "80.000006561000538002");
  ("987654321.1", "12345678.9", "80.000000737100006707");
  ("987654321.12", "12345678.99", "80.000000155520000281");
  ("987654321.123", "12345678.998", "80.000000103923000120");
  ("987654321.1234", "12345678.9987", "80.000000099419400109");
  ("987654321.12345", "12345678.99876", "80.000000099034650108");
  ("987654321.123456", "12345678.998765", "80.000000099002736108");
  ("987654321.1234567", "12345678.9987654", "80.000000099000200808");
  ("987654321.12345678", "12345678.99876543", "80.000000099000012888900031007");
  ("987654321.123456789", "12345678.998765432", "80.000000099000000657900001515");
  ("-9.8", "1", "-9.800000000");
  ("-98.7", "1.2", "-82.250000000000000000");
  ("-987.6", "12.3", "-80.292682926829268292");
  ("-9876.5", "123.4", "-80.036466774716369529");
  ("-98765.4", "1234.5", "-80.004374240583232077");
  ("-987654.3", "12345.6", "-80.000510303265940902");
  ("-9876543.2", "123456.7", "-80.000058320042573631");
  ("-98765432.1", "1234567.8", "-80.000006561000538002");
  ("-987654321.1", "12345678.9", "-80.000000737100006707");
  ("-987654321.12", "12345678.99", "-80.000000155520000281");
  ("-987654321.123", "12345678.998", "-80.000000103923000120");
  ("-987654321.1234", "12345678.9987", "-80.000000099419400109");
  ("-987654321.12345", "12345678.99876", "-80.000000099034650108");
  ("-987654321.123456", "12345678.998765", "-80.000000099002736108");
  ("-987654321.1234567", "12345678.9987654", "-80.000000099000200808");
  ("-987654321.12345678", "12345678.99876543", "-80.000000099000012888900031007");
  ("-987654321.123456789", "12345678.998765432", "-80.000000099000000657900001515");
  ("0.170511", "-353390023.459963", "-0.000000000482500887");
  ("0.170511", "-353390023", "-0.000000000482500888");
  ("0.1", "300000000", "0.000000000");
  ("0.1", "300000000.0", "0.000000000333333333");
  ("0.1", "3000000000", "0.000000000");
  ("0.1", "3000000000.0", "0.000000000033333333");
  ("0.0000000001", "300000000", "0.000000000000000000");
  ("0.0000000001", "300000000.0", "0.000000000000000000333333333");
  ("0.0000000001", "3000000000", "0.000000000000000000");
  ("0.0000000001", "3000000000.0", "0.000000000000000000033333333");
  ("1", "300000000", "0.000000003");
  ("1", "300000000.0", "0.000000003");
  ("1", "3000000000", "0.000000000");
  ("1", "3000000000.0", "0.000000000");
  ("1.0", "300000000", "0.000000003");
  ("1.0", "300000000.0", "0.000000003333333333");
  ("1.0", "3000000000", "0.000000000");
  ("1.0", "3000000000.0", "0.000000000333333333");
  ("0.4", "0.000000003", "133333333.333333333333333333");
  ("0.4", "0.0000000003", "1333333333.333333333333333333333333333");
  ("0.2", "0.000000003", "66666666.666666666666666666");
  ("0.2", "0.0000000003", "666666666.666666666666666666666666666");
  ("400000000", "300000000", "1.333333333");
  ("400000000.0", "300000000.0", "1.333333333333333333");
  ("4000000000", "3000000000", "1.333333333");
  ("4000000000.0", "3000000000.0", "1.333333333333333333");
  ("200000000", "300000000", "0.666666666");
  ("200000000.0", "300000000.0", "0.666666666666666666");
  ("2000000000", "3000000000", "0.666666666");
  ("2000000000.0", "3000000000.0", "0.666666666666666666");
  ("400000000", "0.000000003", "133333333333333333.333333333333333333");
  ("4000000000", "0.000000003", "1333333333333333333.333333333333333333");
  ("1", "500000000.1", "0.000000001")
].
Example test_div_ok : forall m, forallb (check_div m) test_div_cases = true.
Proof. destruct m; vm_compute; reflexivity. Qed.

(** src/arith.rs:1319, [test_rem] *)
Definition test_rem_cases : list (string * string * string) := [
  ("0", "1", "0");
  ("1", "1", "0");
  ("1", "2", "1");
  ("2", "1", "0");
  ("1000000001", "2", "1");
  ("-1000000001", "2", "-1");
  ("-1", "2", "-1");
  ("-1", "-2", "-1");
  ("1", "-2", "1");
  ("-1", "-100", "-1");
  ("100", "3", "1");
  ("100", "1001", "100");
  ("0.2", "1", "0.2");
  ("0.02", "1", "0.02");
  ("0.002", "1", "0.002");
  ("0.0002", "1", "0.0002");
  ("0.00002", "1", "0.00002");
  ("0.000002", "1", "0.000002");
  ("0.0000002", "1", "0.0000002");
  ("0.00000002", "1", "0.00000002");
  ("0.000000002", "1", "0.000000002");
  ("0.2", "1.0", "0.2");
  ("0.2", "1.00", "0.20");
  ("0.2", "1.000", "0.200");
  ("0.2", "1.0000", "0.2000");
  ("0.2", "1.00000", "0.20000");
  ("0.2", "1.000000", "0.200000");
  ("0.2", "1.0000000", "0.2000000");
  ("0.2", "1.00000000", "0.20000000");
  ("0.2", "1.000000000", "0.200000000");
  ("-0.2", "1.0", "-0.2");
  ("-0.2", "1.00", "-0.20");
  ("-0.2", "1.000", "-0.200");
  ("-0.2", "1.0000", "-0.2000");
  ("-0.2", "1.00000", "-0.20000");
  ("-0.2", "1.000000", "-0.200000");
  ("-0.2", "1.0000000", "-0.2000000");
  ("-0.2", "1.00000000", "-0.20000000");
  ("-0.2", "1.000000000", "-0.200000000");
  ("-0.3", "-0.2", "-0.1");
  ("0.3", "0.2", "0.1");
  ("0.3", "-0.2", "0.1");
  ("-0.3", "0.2", "-0.1");
  ("-0.3", "-0.7", "-0.3");
  ("0.3", "-0.7", "0.3");
  ("-0.3", "0.7", "-0.3");
  ("0.3", "0.7", "0.3");
  ("1000000000.1", "7", "6.1");
  ("1000000000.1", "70", "20.1");
  ("101000000000.1", "2000000000", "1000000000.1");
  ("1000000000.1", "9", "1.1");
  ("1000000000.1", "9.00", "1.10");
  ("100.10000000001", "7", "2.10000000001");
  ("101000000000.1", "7.1", "4.9");
  ("101000000000.1", "5", "0.1");
  ("101000000000.1", "5.291", "0.201");
  ("100.1", "7.0000000001", "2.0999999986");
  ("205.6", "9.5000000001", "6.0999999979");
  ("2000000005.1", "7.5000000001", "2.5733333333");
  ("1.2", "0.7", "0.5");
  ("1.22", "0.77", "0.45");
  ("1.222", "0.777", "0.445");
  ("1.2222", "0.7777", "0.4445");
  ("1.22222", "0.77777", "0.44445");
  ("1.222222", "0.777777", "0.444445");
  ("1.2222222", "0.7777777", "0.4444445");
  ("1.22222222", "0.77777777", "0.44444445");
  ("1.222222222", "0.777777777", "0.444444445");
  ("9.8", "1", "0.8");
  ("98.7", "1.2", "0.3");
  ("987.6", "1.23", "1.14");
  ("9876.5", "1.234", "0.798");
  ("98765.4", "1.2345", "0.4620");
  ("987654.3", "1.23456", "0.12720");
  ("9876543.2", "1.234567", "1.027165");
  ("98765432.1", "1.2345678", "0.6925932");
  ("987654321.1", "1.23456789", "0.45802477");
  ("987654321.12", "1.234567899", "0.685432101");
  ("987654321.123", "1.2345678998", "0.0484321002");
  ("987654321.1234", "1.23456789987", "1.22740000000");
  ("987654321.12345", "1.234567899876", "1.222650000000");
  ("987654321.123456", "1.2345678998765", "1.2222560000000");
  ("987654321.1234567", "1.23456789987654", "1.22222470000000");
  ("987654321.12345678", "1.234567899876543", "1.222222380000000");
  ("987654321.123456789", "1.2345678998765432", "1.2222222290000000");
  ("-9.8", "1", "-0.8");
  ("-98.7", "1.2", "-0.3");
  ("-987.6", "1.23", "-1.14");
  ("-9876.5", "1.234", "-0.798");
  ("-98765.4", "1.2345", "-0.4620");
  ("-987654.3", "1.23456", "-0.12720");
  ("-9876543.2", "1.234567", "-1.027165");
  ("-98765432.1", "1.2345678", "-0.6925932");
  ("-987654321.1", "1.23456789", "-0.45802477");
  ("-987654321.12", "1.234567899", "-0.685432101");
  ("-987654321.123", "1.2345678998", "-0.0484321002");
  ("-987654321.1234", "1.23456789987", "-1.22740000000");
  ("-987654321.12345", "1.234567899876", "-1.222650000000");
  ("-987654321.123456", "1.2345678998765", "-1.2222560000000");
  ("-987654321.1234567", "1.23456789987654", "-1.22222470000000");
  ("-987654321.12345678", "1.234567899876543", "-1.222222380000000");
  ("-987654321.123456789", "1.2345678998765432", "-1.2222222290000000");
  ("0.170511", "-353390023.459963", "0.170511");
  ("-353390023.459963", "0.170511", "-0.060946");
  ("0.170511", "-353390023", "0.170511");
  ("-353390023", "0.170511", "-0.112516");
  ("0.4", "0.000000003", "0.000000001");
  ("0.4", "0.0000000003", "0.0000000001");
  ("0.2", "0.000000003", "0.000000002");
  ("0.2", "0.0000000003", "0.0000000002");
  ("1000000000000000001", "70298007", "68215565");
  ("1000000000000000001", "0.70298007", "0.07924142");
  ("1000000000000000001", "500000000.1", "300000001.1");
  ("0.1", "0.20000000001", "0.10000000000")
].
Example test_rem_ok : forall m, forallb (check_rem m) test_rem_cases = true.
Proof. destruct m; vm_compute; reflexivity. Qed.

(** src/round.rs:272, [test_round] *)
Definition test_round_cases : list (string * Z * string) := [
  ("0", (0), "0");
  ("0", (1), "0.0");
  ("1", (-1), "0");
  ("1", (-2), "0");
  ("1.00", (1), "1.0");
  ("1.01", (1), "1.0");
  ("1.02", (1), "1.0");
  ("1.03", (1), "1.0");
  ("1.04", (1), "1.0");
  ("1.05", (1), "1.1");
  ("1.06", (1), "1.1");
  ("1.07", (1), "1.1");
  ("1.08", (1), "1.1");
  ("1.09", (1), "1.1");
  ("1.050", (1), "1.1");
  ("1.051", (1), "1.1");
  ("1.052", (1), "1.1");
  ("1.053", (1), "1.1");
  ("1.054", (1), "1.1");
  ("1.055", (1), "1.1");
  ("1.056", (1), "1.1");
  ("1.057", (1), "1.1");
  ("1.058", (1), "1.1");
  ("1.059", (1), "1.1");
  ("1.040", (1), "1.0");
  ("1.041", (1), "1.0");
  ("1.042", (1), "1.0");
  ("1.043", (1), "1.0");
  ("1.044", (1), "1.0");
  ("1.045", (1), "1.0");
  ("1.046", (1), "1.0");
  ("1.047", (1), "1.0");
  ("1.048", (1), "1.0");
  ("1.049", (1), "1.0");
  ("1.0000000000", (9), "1.000000000");
  ("1.0000000001", (9), "1.000000000");
  ("1.0000000002", (9), "1.000000000");
  ("1.0000000003", (9), "1.000000000");
  ("1.0000000004", (9), "1.000000000");
  ("1.0000000005", (9), "1.000000001");
  ("1.0000000006", (9), "1.000000001");
  ("1.0000000007", (9), "1.000000001");
  ("1.0000000008", (9), "1.000000001");
  ("1.0000000009", (9), "1.000000001");
  ("1.0000000090", (9), "1.000000009");
  ("1.0000000091", (9), "1.000000009");
  ("1.0000000092", (9), "1.000000009");
  ("1.0000000093", (9), "1.000000009");
  ("1.0000000094", (9), "1.000000009");
  ("1.0000000095", (9), "1.000000010");
  ("1.0000000096", (9), "1.000000010");
  ("1.0000000097", (9), "1.000000010");
  ("1.0000000098", (9), "1.000000010");
  ("1.0000000099", (9), "1.000000010");
  ("999999999.0", (0), "999999999");
  ("999999999.1", (0), "999999999");
  ("999999999.2", (0), "999999999");
  ("999999999.3", (0), "999999999");
  ("999999999.4", (0), "999999999");
  ("999999999.5", (0), "1000000000");
  ("999999999.6", (0), "1000000000");
  ("999999999.7", (0), "1000000000");
  ("999999999.8", (0), "1000000000");
  ("999999999.9", (0), "1000000000");
  ("999999999.99990", (4), "999999999.9999");
  ("999999999.99991", (4), "999999999.9999");
  ("999999999.99992", (4), "999999999.9999");
  ("999999999.99993", (4), "999999999.9999");
  ("999999999.99994", (4), "999999999.9999");
  ("999999999.99995", (4), "1000000000.0000");
  ("999999999.99996", (4), "1000000000.0000");
  ("999999999.99997", (4), "1000000000.0000");
  ("999999999.99998", (4), "1000000000.0000");
  ("999999999.99999", (4), "1000000000.0000");
  ("999999999999999999.0", (0), "999999999999999999");
  ("999999999999999999.1", (0), "999999999999999999");
  ("999999999999999999.2", (0), "999999999999999999");
  ("999999999999999999.3", (0), "999999999999999999");
  ("999999999999999999.4", (0), "999999999999999999");
  ("999999999999999999.5", (0), "1000000000000000000");
  ("999999999999999999.6", (0), "1000000000000000000");
  ("999999999999999999.7", (0), "1000000000000000000");
  ("999999999999999999.8", (0), "1000000000000000000");
  ("999999999999999999.9", (0), "1000000000000000000");
  ("999999999999999999.90", (1), "999999999999999999.9");
  ("999999999999999999.91", (1), "999999999999999999.9");
  ("999999999999999999.92", (1), "999999999999999999.9");
  ("999999999999999999.93", (1), "999999999999999999.9");
  ("999999999999999999.94", (1), "999999999999999999.9");
  ("999999999999999999.95", (1), "1000000000000000000.0");
  ("999999999999999999.96", (1), "1000000000000000000.0");
  ("999999999999999999.97", (1), "1000000000000000000.0");
  ("999999999999999999.98", (1), "1000000000000000000.0");
  ("999999999999999999.99", (1), "1000000000000000000.0");
  ("0.9876543210", (10), "0.9876543210");
  ("0.9876543210", (9), "0.987654321");
  ("0.9876543210", (8), "0.98765432");
  ("0.9876543210", (7), "0.9876543");
  ("0.9876543210", (6), "0.987654");
  ("0.9876543210", (5), "0.98765");
  ("0.9876543210", (4), "0.9877");
  ("0.9876543210", (3), "0.988");
  ("0.9876543210", (2), "0.99");
  ("0.9876543210", (1), "1.0");
  ("0.9876543210", (0), "1");
  ("-1.9876543210", (0), "-2");
  ("-1.9876543210", (1), "-2.0");
  ("123456789123456789", (-1), "123456789123456790");
  ("123456789123456789", (-2), "123456789123456800");
  ("123456789123456789", (-3), "123456789123457000");
  ("123456789123456789", (-4), "123456789123460000");
  ("123456789123456789", (-5), "123456789123500000");
  ("123456789123456789", (-6), "123456789123000000");
  ("123456789123456789", (-7), "123456789120000000");
  ("123456789123456789", (-8), "123456789100000000");
  ("123456789123456789", (-9), "123456789000000000");
  ("999999999999999999", (-1), "1000000000000000000");
  ("0.999999999", (9), "0.999999999");
  ("0.999999999", (8), "1.00000000");
  ("0.999999999", (7), "1.0000000");
  ("0.999999999", (6), "1.000000");
  ("0.999999999", (5), "1.00000");
  ("0.999999999", (4), "1.0000");
  ("0.999999999", (3), "1.000");
  ("0.999999999", (2), "1.00");
  ("0.999999999", (1), "1.0");
  ("0.999999999", (0), "1")
].
Example test_round_ok : forall m, forallb (check_round m) test_round_cases = true.
Proof. destruct m; vm_compute; reflexivity. Qed.

(** src/serde.rs:515, [test_to_string] *)
Definition test_to_string_cases : list (string * Z * string) := [
  ("0", (-1), "0");
  ("1", (-1), "1");
  ("-1", (-1), "-1");
  ("+1", (-1), "1");
  ("123", (-1), "123");
  ("123456789012345", (-1), "123456789012345");
  ("0.0", (-1), "0.0");
  ("0.100", (-1), "0.100");
  ("0.1", (-1), "0.1");
  ("0.12345678901234567890", (-1), "0.12345678901234567890");
  ("0.123", (-1), "0.123");
  ("1.0", (-1), "1.0");
  ("-1.0", (-1), "-1.0");
  ("1e0", (-1), "1");
  ("1E1", (-1), "10");
  ("1E+2", (-1), "100");
  ("1.0E-2", (-1), "0.010");
  ("1.0e10", (-1), "10000000000");
  ("1.2345e20", (-1), "123450000000000000000");
  ("5.4433e4", (-1), "54433");
  ("5.4433e3", (-1), "5443.3");
  ("5.4433e2", (-1), "544.33");
  ("5.4433e1", (-1), "54.433");
  ("5.4433e0", (-1), "5.4433");
  ("5.4433e-1", (-1), "0.54433");
  ("5.4433e-2", (-1), "0.054433");
  ("5.4433e-3", (-1), "0.0054433");
  ("5.4433e-5", (-1), "0.000054433");
  ("5.4433e-6", (-1), "0.0000054433");
  ("5.4433e-7", (-1), "0.00000054433");
  ("5.4433e-8", (-1), "0.000000054433");
  ("5.4433e-9", (-1), "0.0000000054433");
  ("5.4433e-10", (-1), "0.00000000054433");
  ("5.4433e-11", (-1), "0.000000000054433");
  ("5.4433e-20", (-1), "0.000000000000000000054433");
  ("123456789.123456789", (0), "123456789");
  ("123456789.123456789", (1), "123456789.1");
  ("123456789.123456789", (2), "123456789.12");
  ("123456789.123456789", (3), "123456789.123");
  ("123456789.123456789", (4), "123456789.1234");
  ("123456789.123456789", (5), "123456789.12345");
  ("123456789.123456789", (6), "123456789.123456");
  ("123456789.123456789", (7), "123456789.1234567");
  ("123456789.123456789", (8), "123456789.12345678");
  ("123456789.123456789", (9), "123456789.123456789");
  ("123456789.123456789", (10), "123456789.1234567890");
  ("1.234000567", (4), "1.2340");
  ("1.234000567", (5), "1.23400");
  ("1.234000567", (6), "1.234000");
  ("1.021", (2), "1.02");
  ("1.00021", (2), "1.00");
  ("123", (2), "123.00")
].
Example test_to_string_ok : forall m, forallb (check_to_string m) test_to_string_cases = true.
Proof. destruct m; vm_compute; reflexivity. Qed.

(** src/serde.rs:464, [test_from_str] *)
Definition test_from_str_cases : list (string) := [
  "0";
  "1";
  "-1";
  "123";
  "123456789012345";
  "0.1";
  "0.123";
  "1.0";
  "-1.0";
  "1E1";
  "1E+2";
  "1.0E-2";
  "1.0e10";
  "1.0e02"
].
Example test_from_str_ok : forall m, forallb (check_parse_ok m) test_from_str_cases = true.
Proof. destruct m; vm_compute; reflexivity. Qed.

(** src/serde.rs:488, [test_from_str_err] *)
Definition test_from_str_err_cases : list (string) := [
  "";
  "abc";
  ".";
  ".a";
  ".NaN";
  "N";
  "Nb";
  "Na";
  "Nab";
  "NaNx";
  "0x";
  "0E";
  ".1e+";
  ".1e-";
  ".1e+f";
  ".1e12345";
  ".1e-200";
  "1234567890123456789012345678901234567890123456789012345678901234567890"
].
Example test_from_str_err_ok : forall m, forallb (check_parse_err m) test_from_str_err_cases = true.
Proof. destruct m; vm_compute; reflexivity. Qed.

(** src/cmp.rs:111, [test_cmp] *)
Definition test_cmp_cases : list (string * string * comparison) := [
  ("0", "0", Eq);
  ("0", "1", Lt);
  ("1", "0", Gt);
  ("-1", "-1", Eq);
  ("1", "-1", Gt);
  ("-1", "1", Lt);
  ("-1", "-2", Gt);
  ("1", "1", Eq);
  ("2", "1", Gt);
  ("1", "2", Lt);
  ("1.0", "1", Eq);
  ("1", "1.0", Eq);
  ("1.000", "1.00", Eq);
  ("1.000000000000", "1.00000", Eq);
  ("1.01", "1", Gt);
  ("1", "1.01", Lt);
  ("1.02", "1.01", Gt);
  ("1.01", "1.02", Lt);
  ("1000000000", "999999999", Gt);
  ("999999999", "1000000000", Lt);
  ("1.0000000000000000000000000001", "1", Gt);
  ("1", "1.0000000000000000000000000001", Lt);
  ("1.0000000010000000000000000001", "1.0000000010000000000000000001", Eq);
  ("1.0000000010000000000000000001", "1.0000000010000000000000000002", Lt);
  ("1.0000000010000000000000000002", "1.0000000010000000000000000001", Gt);
  ("1.0000000010000000010000000001", "1.0000000010000000010000000001", Eq);
  ("1.0000000010000000010000000001", "1.0000000010000000010000000002", Lt);
  ("1.0000000010000000010000000002", "1.0000000010000000010000000001", Gt);
  ("100000000000000000000000000", "100000000000000000000000000", Eq);
  ("100000000000000000000000001", "100000000000000000000000000", Gt);
  ("100000000000000000000000000", "100000000000000000000000001", Lt)
].
Example test_cmp_ok : forall m, forallb (check_cmp m) test_cmp_cases = true.
Proof. destruct m; vm_compute; reflexivity. Qed.

(** src/decimal.rs:262, [test_from_i64] *)
Definition test_from_i64_cases : list (Z * string) := [
  ((0), "0");
  ((1), "1");
  ((-1), "-1");
  ((100), "100");
  ((-100), "-100");
  ((12345123456789), "12345123456789");
  ((-12345123456789), "-12345123456789");
  ((-9223372036854775808), "-9223372036854775808");
  ((9223372036854775807), "9223372036854775807")
].
Example test_from_i64_ok : forall m, forallb (check_from_i64 m) test_from_i64_cases = true.
Proof. destruct m; vm_compute; reflexivity. Qed.

(** src/decimal.rs:313, [test_from_u64] *)
Definition test_from_u64_cases : list (Z * string) := [
  ((0), "0");
  ((1), "1");
  ((100), "100");
  ((12345123456789), "12345123456789");
  ((18446744073709551615), "18446744073709551615")
].
Example test_from_u64_ok : forall m, forallb (check_from_u64 m) test_from_u64_cases = true.
Proof. destruct m; vm_compute; reflexivity. Qed.

(** src/decimal.rs:282, [test_to_i64], success *)
Definition test_to_i64_cases : list (string * Z) := [
  ("0", (0));
  ("1", (1));
  ("1.1", (1));
  ("1.5", (2));
  ("3.8", (4));
  ("-1.2", (-1));
  ("-5.9", (-6));
  ("100", (100));
  ("12345123456789", (12345123456789));
  ("-9223372036854775808", (-9223372036854775808));
  ("9223372036854775807", (9223372036854775807))
].
Example test_to_i64_ok : forall m, forallb (check_to_i64 m) test_to_i64_cases = true.
Proof. destruct m; vm_compute; reflexivity. Qed.

(** src/decimal.rs:282, [test_to_i64], fail *)
Definition test_to_i64_err_cases : list (string) := [
  "-9223372036854775809";
  "9223372036854775808";
  "10000000000000000000000"
].
Example test_to_i64_err_ok : forall m, forallb (check_to_i64_err m) test_to_i64_err_cases = true.
Proof. destruct m; vm_compute; reflexivity. Qed.

(** src/decimal.rs:329, [test_to_u64], success *)
Definition test_to_u64_cases : list (string * Z) := [
  ("0", (0));
  ("1", (1));
  ("1.1", (1));
  ("1.5", (2));
  ("3.8", (4));
  ("100", (100));
  ("12345123456789", (12345123456789));
  ("9223372036854775807", (9223372036854775807));
  ("18446744073709551615", (18446744073709551615))
].
Example test_to_u64_ok : forall m, forallb (check_to_u64 m) test_to_u64_cases = true.
Proof. destruct m; vm_compute; reflexivity. Qed.

(** src/decimal.rs:329, [test_to_u64], fail *)
Definition test_to_u64_err_cases : list (string) := [
  "-1";
  "18446744073709551616";
  "10000000000000000000000"
].
Example test_to_u64_err_ok : forall m, forallb (check_to_u64_err m) test_to_u64_err_cases = true.
Proof. destruct m; vm_compute; reflexivity. Qed.

(** src/decimal.rs:253, [test_hash] *)
Definition test_hash_cases : list (string * string) := [
  ("0.1", "0.10");
  ("1.2", "1.2")
].
Example test_hash_ok : forall m, forallb (check_hash m) test_hash_cases = true.
Proof. destruct m; vm_compute; reflexivity. Qed.

(** src/utils.rs:380, [test_units_greater_equal] *)
Definition test_uge_cases : list (list Z * list Z * bool) := [
  ([1], [1], true);
  ([2], [1], true);
  ([1], [2], false);
  ([1; 1], [1; 1], true);
  ([1; 1], [2; 1], false);
  ([2; 1], [1; 1], true);
  ([2; 1], [1; 2], false);
  ([1; 1], [1; 2], false);
  ([1; 2], [1; 2], true);
  ([0; 2], [1; 2], false);
  ([1; 1; 1], [1; 1], true);
  ([0; 1; 1], [1; 1], true);
  ([1; 1; 1], [2; 1], false);
  ([1; 1], [0; 1; 1], true);
  ([1; 1], [1; 1; 1], false)
].
Example test_uge_ok : forall m, forallb (check_uge m) test_uge_cases = true.
Proof. destruct m; vm_compute; reflexivity. Qed.
