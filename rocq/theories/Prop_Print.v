(** * Properties: formatting (C08, C09, C12, C21). *)
From Coq Require Import ZArith List Bool String QArith.
From Verif Require Import Rust Model_Base Model_Decimal Model_Serde Spec Lib Conv Print Witness Tests.
Import ListNotations.
Open Scope Z_scope.

(** C08: the printed bytes are those of a canonical numeral with the sign and
    the number of fractional digits of the decimal, denoting its value
    truncated to the declared digits; such a numeral is unique. *)
Theorem C08_to_string_is_canonical : forall m d, wf d ->
  exists n, to_string m d (-1) = Ret (numeral_bytes n) /\ canonical n /\
    is_minus (n_sign n) = neg d /\ zlength (n_frac n) = frac_digits d /\
    (numeral_value n == truncate_at (value d) (frac_digits d))%Q.
Proof. intros m d W. exact (to_string_ok m d (-1) W). Qed.
Print Assumptions C08_to_string_is_canonical.
Theorem C08_to_string_is_exact : forall m d, wf d -> nohidden d ->
  exists n, to_string m d (-1) = Ret (numeral_bytes n) /\ canonical n /\
    is_minus (n_sign n) = neg d /\ zlength (n_frac n) = frac_digits d /\ (numeral_value n == value d)%Q.
Proof.
  intros m d W N. destruct (to_string_ok m d (-1) W) as (n & E & C & S & F & V). exists n. repeat split; try assumption; try apply C.
  rewrite V. apply nohidden_truncate; [assumption|assumption|apply Z.le_refl].
Qed.
Print Assumptions C08_to_string_is_exact.
Theorem C08_canonical_numerals_are_unique : forall n n', canonical n -> canonical n' ->
  is_minus (n_sign n) = is_minus (n_sign n') -> zlength (n_frac n) = zlength (n_frac n') ->
  (numeral_value n == numeral_value n')%Q -> n = n'.
Proof. exact canonical_unique. Qed.
Print Assumptions C08_canonical_numerals_are_unique.

Example C08_example : let d := dec "-0012.50" in wf d /\ nohidden d /\
  to_string Debug d (-1) = Ret (bytes "-12.50").
Proof. hyps. Qed.

(** C09 *)
Theorem C09_to_string_truncates : forall m d f, wf d -> 0 <= f ->
  exists n, to_string m d f = Ret (numeral_bytes n) /\ canonical n /\
    is_minus (n_sign n) = neg d /\ zlength (n_frac n) = f /\ (numeral_value n == truncate_at (value d) f)%Q.
Proof.
  intros m d f W Hf. pose proof (to_string_ok m d f W) as H. replace (f <? 0) with false in H by (symmetry; apply Z.ltb_ge; exact Hf). exact H.
Qed.
Print Assumptions C09_to_string_truncates.

Example C09_example : let d := dec "-12.987" in wf d /\
  to_string Debug d 1 = Ret (bytes "-12.9") /\ to_string Debug d 0 = Ret (bytes "-12") /\
  to_string Debug d 11 = Ret (bytes "-12.98700000000") /\ to_string Debug (dec "-0.04") 1 = Ret (bytes "-0.0").
Proof. hyps. Qed.

(** C12 *)
Theorem C12_formatting_appends_ascii : forall m d buf f, wf d ->
  exists s, to_string m d f = Ret s /\ append_str_buf m d buf f = Ret (buf ++ s)%list /\
    Forall (fun b => b = 45 \/ b = 46 \/ 48 <= b <= 57) s.
Proof. exact append_str_spec. Qed.
Print Assumptions C12_formatting_appends_ascii.

Example C12_example : let d := dec "-12.5" in wf d /\
  append_str_buf Debug d (bytes "x=") (-1) = Ret (bytes "x=-12.5").
Proof. hyps. Qed.

(** C21, printing: the canonical numeral of the integer. *)
Theorem C21_i64_prints_in_decimal : forall m z, -9223372036854775808 <= z <= 9223372036854775807 ->
  exists d n, from_i64 m z = Ret d /\ to_string m d (-1) = Ret (numeral_bytes n) /\ canonical n /\
    n_point n = false /\ n_frac n = [] /\ is_minus (n_sign n) = (z <? 0) /\ (numeral_value n == inject_Z z)%Q.
Proof. exact i64_prints. Qed.
Print Assumptions C21_i64_prints_in_decimal.
Theorem C21_u64_prints_in_decimal : forall m z, 0 <= z <= 18446744073709551615 ->
  exists d n, from_u64 m z = Ret d /\ to_string m d (-1) = Ret (numeral_bytes n) /\ canonical n /\
    n_point n = false /\ n_frac n = [] /\ is_minus (n_sign n) = (z <? 0) /\ (numeral_value n == inject_Z z)%Q.
Proof. exact u64_prints. Qed.
Print Assumptions C21_u64_prints_in_decimal.

Example C21_printing_example : exists d, from_i64 Debug (-1000000000000000001) = Ret d /\
  to_string Debug d (-1) = Ret (bytes "-1000000000000000001").
Proof. eexists. split; [vm_compute; reflexivity|]. vm_compute. reflexivity. Qed.
