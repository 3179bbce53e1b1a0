(** * Properties: multiplication (C28-C32, and its part of C26 and C50). *)
From Coq Require Import ZArith List Bool String QArith Qabs.
From Verif Require Import Rust Model_Base Model_Cmp Model_Arith Model_Serde Spec MulQ MulLaws Tests Witness.
Import ListNotations.
Open Scope Z_scope.

(** C28: if all digits fit, a returning multiplication is exact, has the
    fractional digits of both operands together, and is again regular. *)
Theorem C28_multiplication_is_exact : forall m a b res rs d, regular a -> regular b -> product_fits a b ->
  mul_to m a b res = Ret (rs, d) ->
  rs = Ok tt /\ (value d == value a * value b)%Q /\ regular d /\
  (~ (value a == 0)%Q -> ~ (value b == 0)%Q -> frac_digits d = frac_digits a + frac_digits b).
Proof.
  intros m a b res rs d A B F H. destruct (mul_value m a b res rs d A B F H) as (R & D & _ & V).
  split; [exact R|]. split; [exact V|]. split; [exact D|].
  destruct A as (A1 & A2 & A3 & A4), B as (B1 & B2 & B3 & B4).
  apply (mul_exact m a b res rs d A1 B1 A2 B2 A3 B3 A4 B4 F H).
Qed.
Print Assumptions C28_multiplication_is_exact.
(** ... and it does return: always in a release build, and in a debug build
    unless the left operand has a single unit, holding fractional digits. *)
Theorem C28_multiplication_returns : forall m a b res, regular a -> regular b -> product_fits a b ->
  (m = Release \/ 0 < int_digits a \/ 9 < frac_digits a) -> exists d, mul_to m a b res = Ret (Ok tt, d).
Proof.
  intros m a b res A B F M. pose proof A as (A1 & A2 & A3 & A4). pose proof B as (B1 & B2 & B3 & B4).
  destruct (mul_fits_returns m a b res A1 B1 A2 B2 A3 B3 F M) as [[rs d] E].
  destruct (mul_value m a b res rs d A B F E) as (-> & _). eauto.
Qed.
Print Assumptions C28_multiplication_returns.
Example C28_example : let a := dec "-123456789012.000000123" in let b := dec "99999999999.5" in
  regular a /\ regular b /\
  product_int_units a b + product_frac_units a b = 5 /\ product_lost_units a b = 0 /\ 0 < int_digits a /\
  product_fits a b /\
  (exists d, mul_to Debug a b zero = Ret (Ok tt, d) /\ eq Debug d (dec "-12345678901138271617793.9999999385") = Ret true).
Proof. hyps. eexists. split; [vm_compute; reflexivity|]. vm_compute. reflexivity. Qed.

(** C29: in general the product is truncated towards zero. [lost] units are
    dropped; the error is measured in units of the last kept place. *)
Theorem C29_truncation_error : forall m a b res d, wf a -> wf b -> clean a -> clean b -> tight a -> tight b ->
  mul_to m a b res = Ret (Ok tt, d) ->
  let lost := product_lost_units a b in
  let err := ((Qabs (value a * value b) - Qabs (value d)) * inject_Z (base ^ product_frac_units a b))%Q in
  (0 <= err)%Q /\ (lost = 0 -> (err == 0)%Q) /\ (lost = 1 -> (err < 1)%Q) /\
  (0 < lost -> (err < inject_Z (2 * Z.min 9 lost))%Q).
Proof.
  intros m a b res d Ha Hb Ca Cb Ta Tb H.
  apply (mul_truncates m a b res (Ok tt) d Ha Hb Ca Cb Ta Tb H eq_refl).
Qed.
Print Assumptions C29_truncation_error.
(** Sign and shape of every product. *)
Theorem C29_sign_and_shape : forall m a b res d, wf a -> wf b -> clean a -> clean b -> tight a -> tight b ->
  mul_to m a b res = Ret (Ok tt, d) ->
  wf d /\ clean d /\ tight d /\ (~ (value d == 0)%Q -> neg d = xorb (neg a) (neg b)) /\
  (~ (value a == 0)%Q -> ~ (value b == 0)%Q ->
     int_digits d = 9 * product_int_units a b /\
     frac_digits d = Z.min (frac_digits a + frac_digits b) (9 * product_frac_units a b)).
Proof.
  intros m a b res d Ha Hb Ca Cb Ta Tb H.
  destruct (mul_truncates m a b res (Ok tt) d Ha Hb Ca Cb Ta Tb H eq_refl) as (W & C & T & _ & _ & _ & S & N & _).
  repeat (split; [assumption|]). assumption.
Qed.
Print Assumptions C29_sign_and_shape.
Example C29_example : let a := dec "1.000000000000000000000000000001" in let b := dec "-0.999999999999999999999999999999" in
  wf a /\ wf b /\ clean a /\ clean b /\ tight a /\ tight b /\ product_lost_units a b = 4 /\
  (exists d, mul_to Debug a b zero = Ret (Ok tt, d) /\ (Qabs (value d) < Qabs (value a * value b))%Q).
Proof. hyps. eexists. split; [vm_compute; reflexivity|]. vm_compute. reflexivity. Qed.

(** The bound of C29 cannot be lowered to one unit of the last place: here the
    error is more than two of them (10^-36). *)
Theorem C29_error_can_exceed_two_ulps :
  exists a b d, regular a /\ regular b /\ (forall m, mul_to m a b zero = Ret (Ok tt, d)) /\
    (2 < (Qabs (value a * value b) - Qabs (value d)) * inject_Z (base ^ product_frac_units a b))%Q.
Proof.
  exists (dec "1.999999999999999999999999999999999999"), (dec "1.999999999999999999999999999999999999"). eexists.
  split; [hyps|]. split; [hyps|]. split.
  - intros [|]; vm_compute; reflexivity.
  - vm_compute. reflexivity.
Qed.
Print Assumptions C29_error_can_exceed_two_ulps.

(** C30 *)
Theorem C30_overflow_iff_too_many_digits : forall m a b res rs d, wf a -> wf b -> clean a -> clean b -> tight a -> tight b ->
  mul_to m a b res = Ret (rs, d) ->
  (rs = Ok tt \/ rs = Err Overflow) /\
  (rs = Err Overflow <-> ~ (value a == 0)%Q /\ ~ (value b == 0)%Q /\ 81 < int_digits a + int_digits b) /\
  (rs = Err Overflow -> d = zero).
Proof. exact mul_overflow. Qed.
Print Assumptions C30_overflow_iff_too_many_digits.
(** ... up to 119 declared integral digits it is returned. *)
Theorem C30_overflow_is_returned : forall m a b res, wf a -> wf b -> clean a -> clean b -> tight a -> tight b ->
  ~ (value a == 0)%Q -> ~ (value b == 0)%Q -> 81 < int_digits a + int_digits b <= 119 -> frac_digits a + frac_digits b <= 119 ->
  mul_to m a b res = Ret (Err Overflow, zero).
Proof.
  intros m a b res Ha Hb Ca Cb Ta Tb Za Zb HI HF.
  destruct (proj2 (mul_returns m a b res Ha Hb Ca Cb Ta Tb)) as [[rs d] E]; [intuition|].
  destruct (mul_overflow m a b res rs d Ha Hb Ca Cb Ta Tb E) as (_ & O1 & O2).
  assert (R : rs = Err Overflow) by (apply O1; intuition). rewrite E, R, (O2 R). reflexivity.
Qed.
Print Assumptions C30_overflow_is_returned.
Example C30_example : let a := dec "-12345678901234567890123456789012345678901234567890" in
  wf a /\ clean a /\ tight a /\ ~ (value a == 0)%Q /\ int_digits a = 50 /\ mul_to Release a a zero = Ret (Err Overflow, zero).
Proof. hyps. Qed.

(** C31 is false. In a debug build [.5 * .5] panics (a failed assertion), also
    when the operands are sums such as [0.2 + 0.3] computed before ... *)
Theorem C31_multiplication_never_panics_refuted :
  mul_to Debug (dec ".5") (dec ".5") zero = Panic PAssert /\
  exists s, add_to Debug (dec "0.2") (dec "0.3") zero = Ret (Ok tt, s) /\ mul_to Debug s s zero = Panic PAssert.
Proof. split; [vm_compute; reflexivity|]. eexists. split; [vm_compute; reflexivity|]. vm_compute. reflexivity. Qed.
Print Assumptions C31_multiplication_never_panics_refuted.
(** ... and in both builds a product of 60-digit integers does. *)
Theorem C31_long_integers_panic_refuted : exists a, from_str Debug (bytes "100000000000000000000000000000000000000000000000000000000000") = Ret (Ok a) /\
  from_str Release (bytes "100000000000000000000000000000000000000000000000000000000000") = Ret (Ok a) /\ 
  mul_to Debug a a zero = Panic POverflow /\ exists p, mul_to Release a a zero = Panic p.
Proof. eexists. split; [vm_compute; reflexivity|]. split; [vm_compute; reflexivity|]. split; [vm_compute; reflexivity|]. eexists. vm_compute. reflexivity. Qed.
Print Assumptions C31_long_integers_panic_refuted.
(** What holds: exactly when it returns. *)
Theorem C31_multiplication_returns_iff_partial : forall m a b res, wf a -> wf b -> clean a -> clean b -> tight a -> tight b ->
  ((exists o, mul_to m a b res = Ret o) <->
   (value a == 0)%Q \/ (value b == 0)%Q \/
   (int_digits a + int_digits b <= 119 /\ frac_digits a + frac_digits b <= 119 /\
    (81 < int_digits a + int_digits b \/ product_lost_units a b < iu a + fu a \/
     (m = Release /\ product_lost_units a b = iu a + fu a)))).
Proof. exact mul_returns. Qed.
Print Assumptions C31_multiplication_returns_iff_partial.
(** In particular a release build never panics for at most 36 fractional
    digits in the right operand, and 119 of each kind together. *)
Theorem C31_release_returns_partial : forall a b res, wf a -> wf b -> clean a -> clean b -> tight a -> tight b ->
  frac_digits b <= 36 -> int_digits a + int_digits b <= 119 -> frac_digits a + frac_digits b <= 119 ->
  exists o, mul_to Release a b res = Ret o.
Proof.
  intros a b res Ha Hb Ca Cb Ta Tb F HI HF. apply mul_returns; auto. right. right. split; [exact HI|]. split; [exact HF|].
  destruct (Z.lt_ge_cases 81 (int_digits a + int_digits b)) as [L|L]; [auto|].
  pose proof (lost_room a b Ha Hb F L) as R. apply Z.lt_eq_cases in R. destruct R; auto.
Qed.
Print Assumptions C31_release_returns_partial.
Example C31_example : let a := dec "-12345678901234567890.5" in let b := dec "0.0000000000000000000000007" in wf a /\ wf b /\ clean a /\ clean b /\ tight a /\ tight b /\
  frac_digits b <= 36 /\ int_digits a + int_digits b <= 119 /\ frac_digits a + frac_digits b <= 119 /\ product_lost_units a b < iu a + fu a.
Proof.
  cbv zeta. split; [hyps|]. split; [hyps|]. split; [hyps|]. split; [hyps|]. split; [hyps|]. split; [hyps|]. split; [vm_compute; discriminate|]. split; [vm_compute; discriminate|].
  split; [vm_compute; discriminate|]. vm_compute. reflexivity.
Qed.

(** C32 *)
Theorem C32_multiplication_commutes : forall m a b res x y, regular a -> regular b -> product_fits a b ->
  mul_to m a b res = Ret (Ok tt, x) -> mul_to m b a res = Ret (Ok tt, y) ->
  (value x == value y)%Q /\ eq m x y = Ret true.
Proof. exact mul_comm. Qed.
Print Assumptions C32_multiplication_commutes.
Theorem C32_multiplication_associates : forall m a b c res ab abc bc abc', regular a -> regular b -> regular c ->
  mul_to m a b res = Ret (Ok tt, ab) -> mul_to m ab c res = Ret (Ok tt, abc) ->
  mul_to m b c res = Ret (Ok tt, bc) -> mul_to m a bc res = Ret (Ok tt, abc') ->
  product_fits a b -> product_fits ab c -> product_fits b c -> product_fits a bc ->
  (value abc == value abc')%Q /\ eq m abc abc' = Ret true.
Proof. exact mul_assoc. Qed.
Print Assumptions C32_multiplication_associates.
Theorem C32_multiplication_distributes : forall m a b c res s x y z w, regular a -> regular b -> regular c ->
  ~ negzero b -> ~ negzero c ->
  add_to m b c res = Ret (Ok tt, s) -> mul_to m a s res = Ret (Ok tt, x) ->
  mul_to m a b res = Ret (Ok tt, y) -> mul_to m a c res = Ret (Ok tt, z) -> add_to m y z res = Ret (Ok tt, w) ->
  product_fits a s -> product_fits a b -> product_fits a c ->
  (value x == value w)%Q /\ eq m x w = Ret true.
Proof. exact mul_distr. Qed.
Print Assumptions C32_multiplication_distributes.
Theorem C32_one_is_neutral : forall m a u res x, regular a -> regular u -> ~ negzero a -> (value u == 1)%Q -> product_fits a u ->
  mul_to m a u res = Ret (Ok tt, x) \/ mul_to m u a res = Ret (Ok tt, x) ->
  (value x == value a)%Q /\ eq m x a = Ret true.
Proof. exact mul_one. Qed.
Print Assumptions C32_one_is_neutral.
Theorem C32_zero_absorbs : forall m a z res, wf a -> wf z -> clean a -> clean z -> (value z == 0)%Q ->
  mul_to m a z res = Ret (Ok tt, zero) /\ mul_to m z a res = Ret (Ok tt, zero).
Proof. exact mul_zero. Qed.
Print Assumptions C32_zero_absorbs.
Theorem C32_signs : forall m a b res x y, regular a -> regular b -> product_fits a b ->
  mul_to m a b res = Ret (Ok tt, x) -> mul_to m a (flip b) res = Ret (Ok tt, y) ->
  (value y == - value x)%Q /\ (~ (value x == 0)%Q -> eq m y (flip x) = Ret true).
Proof. exact mul_flip. Qed.
Print Assumptions C32_signs.
Example C32_example : let a := dec "12345678901.5" in let b := dec "-0.00000007" in let c := dec "77.25" in
  regular a /\ regular b /\ regular c /\ ~ negzero b /\ ~ negzero c /\
  product_fits a b /\ product_fits a c /\ product_fits b c /\ flip b = dec "0.00000007" /\
  exists ab, mul_to Debug a b zero = Ret (Ok tt, ab) /\ exists abc, mul_to Debug ab c zero = Ret (Ok tt, abc) /\
  exists bc, mul_to Debug b c zero = Ret (Ok tt, bc) /\ exists abc', mul_to Debug a bc zero = Ret (Ok tt, abc') /\
  exists s, add_to Debug b c zero = Ret (Ok tt, s) /\ exists x, mul_to Debug a s zero = Ret (Ok tt, x) /\
  product_fits ab c /\ product_fits a bc /\ product_fits a s.
Proof.
  hyps.
  do 6 (eexists; split; [vm_compute; reflexivity|]). hyps.
Qed.

(** C26 (multiplication): whatever the signs of zero operands. *)
Theorem C26_no_negative_zero_mul : forall m a b res rs d, wf a -> wf b -> clean a -> clean b -> tight a -> tight b ->
  mul_to m a b res = Ret (rs, d) -> ~ negzero d.
Proof.
  intros m a b res rs d Ha Hb Ca Cb Ta Tb H.
  destruct (mul_overflow m a b res rs d Ha Hb Ca Cb Ta Tb H) as ([E|E] & _ & Z).
  - apply (mul_truncates m a b res rs d Ha Hb Ca Cb Ta Tb H E).
  - rewrite (Z E). nzd.
Qed.
Print Assumptions C26_no_negative_zero_mul.
Example C26_mul_example : let a := dec "-0.000000000000000000000000000001" in let b := dec "0.00000000000000000000001" in
  wf a /\ wf b /\ clean a /\ clean b /\ tight a /\ tight b /\
  exists d, mul_to Debug a b zero = Ret (Ok tt, d) /\ neg d = false /\ (value d == 0)%Q.
Proof. hyps. eexists. split; [vm_compute; reflexivity|]. hyps. Qed.

(** C50: products, from string to string. *)
Theorem C50_end_to_end_products : forall m s t, numeral_ok s -> numeral_ok t -> n_exp s = None -> n_exp t = None ->
  zlength (n_int s) + zlength (n_frac s) <= 65 -> zlength (n_int t) + zlength (n_frac t) <= 65 ->
  zlength (n_int s) + zlength (n_int t) <= 45 -> zlength (n_frac s) + zlength (n_frac t) <= 36 ->
  m = Release \/ n_int s <> [] ->
  exists a b r n, from_str m (numeral_bytes s) = Ret (Ok a) /\ from_str m (numeral_bytes t) = Ret (Ok b) /\
    mul_to m a b zero = Ret (Ok tt, r) /\ to_string m r (-1) = Ret (numeral_bytes n) /\ canonical n /\
    (numeral_value n == numeral_value s * numeral_value t)%Q /\
    (~ (numeral_value s == 0)%Q -> ~ (numeral_value t == 0)%Q -> zlength (n_frac n) = zlength (n_frac s) + zlength (n_frac t)).
Proof. exact end_to_end_mul. Qed.
Print Assumptions C50_end_to_end_products.
Example C50_products_example : exists a b r,
  from_str Debug (bytes "-99999999999999999999.5") = Ret (Ok a) /\ from_str Debug (bytes "20000000000000000000000.05") = Ret (Ok b) /\
  mul_to Debug a b zero = Ret (Ok tt, r) /\ to_string Debug r (-1) = Ret (bytes "-1999999999999999999990004999999999999999999.975").
Proof. do 3 eexists. split; [vm_compute; reflexivity|]. split; [vm_compute; reflexivity|]. split; [vm_compute; reflexivity|]. vm_compute. reflexivity. Qed.
