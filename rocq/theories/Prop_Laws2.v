(** * Properties: order, rounding and converting (C60, C62, C63). *)
From Coq Require Import ZArith List Bool String Lia QArith Qabs Qround Lqa.
From Verif Require Import Rust Model_Base Model_Cmp Model_Round Model_Decimal Model_Arith Model_Serde Spec Lib Sign AddSubQ Basics Cmp QLib RoundQ MulQ MulLaws ParseMain ParseThms Laws Prop_Compare Prop_AddSub Prop_Conv Prop_Mul Prop_Print Prop_Round Tests Witness.
Import ListNotations.
Open Scope Z_scope.

(** C60: adding or subtracting the same number keeps the order; subtracting from the same number reverses it. *)
Lemma cmp_of_values m a b x y o : wf a -> wf b -> wf x -> wf y -> ~ negzero a -> ~ negzero b -> ~ negzero x -> ~ negzero y ->
  cmp m a b = Ret o -> (value x ?= value y)%Q = (value a ?= value b)%Q -> cmp m x y = Ret o.
Proof. intros Wa Wb Wx Wy Za Zb Zx Zy H E. rewrite cmp_numeric_nz in * by assumption. rewrite E. exact H. Qed.
Lemma cmp_shift (p q r : Q) : (p + r ?= q + r)%Q = (p ?= q)%Q.
Proof.
  destruct (Qcompare_spec p q) as [E|E|E].
  - apply (proj1 (Qeq_alt _ _)). rewrite E. reflexivity.
  - apply (proj1 (Qlt_alt _ _)). lra.
  - apply (proj1 (Qgt_alt _ _)). lra.
Qed.
Lemma cmp_opp (p q : Q) : (- p ?= - q)%Q = CompOpp (p ?= q)%Q.
Proof.
  destruct (Qcompare_spec p q) as [E|E|E].
  - apply (proj1 (Qeq_alt _ _)). rewrite E. reflexivity.
  - apply (proj1 (Qgt_alt _ _)). lra.
  - apply (proj1 (Qlt_alt _ _)). lra.
Qed.
Lemma cmp_scale (p q r : Q) : (0 < r)%Q -> (p * r ?= q * r)%Q = (p ?= q)%Q.
Proof.
  intros R. destruct (Qcompare_spec p q) as [E|E|E].
  - apply (proj1 (Qeq_alt _ _)). rewrite E. reflexivity.
  - apply (proj1 (Qlt_alt _ _)). apply Qmult_lt_compat_r; assumption.
  - apply (proj1 (Qgt_alt _ _)). apply Qmult_lt_compat_r; assumption.
Qed.
Theorem C60_sums_keep_the_order : forall m a b c r1 r2 x y o, wf a -> wf b -> wf c -> clean a -> clean b -> clean c -> ~ negzero a -> ~ negzero b -> ~ negzero c ->
  add_to m a c r1 = Ret (Ok tt, x) -> add_to m b c r2 = Ret (Ok tt, y) -> cmp m a b = Ret o -> cmp m x y = Ret o.
Proof.
  intros m a b c r1 r2 x y o Wa Wb Wc Ca Cb Cc Za Zb Zc H1 H2 H.
  destruct (C22_addition_is_exact m a c r1 _ x Wa Wc H1) as (_ & Wx & Vx & _). destruct (C22_addition_is_exact m b c r2 _ y Wb Wc H2) as (_ & Wy & Vy & _).
  pose proof (C26_no_negative_zero_add m a c r1 _ x Wa Wc Ca Cc Za Zc H1) as Zx. pose proof (C26_no_negative_zero_add m b c r2 _ y Wb Wc Cb Cc Zb Zc H2) as Zy.
  apply (cmp_of_values m a b x y o); try assumption. rewrite (Qcompare_comp _ _ Vx _ _ Vy). apply cmp_shift.
Qed.
Print Assumptions C60_sums_keep_the_order.
Theorem C60_differences_keep_the_order : forall m a b c r1 r2 x y o, wf a -> wf b -> wf c -> clean a -> clean b -> clean c -> ~ negzero a -> ~ negzero b -> ~ negzero c ->
  (sub_to m a c r1 = Ret (Ok tt, x) -> sub_to m b c r2 = Ret (Ok tt, y) -> cmp m a b = Ret o -> cmp m x y = Ret o) /\
  (sub_to m c a r1 = Ret (Ok tt, x) -> sub_to m c b r2 = Ret (Ok tt, y) -> cmp m a b = Ret o -> cmp m y x = Ret o).
Proof.
  intros m a b c r1 r2 x y o Wa Wb Wc Ca Cb Cc Za Zb Zc. split; intros H1 H2 H.
  - destruct (C23_subtraction_is_exact m a c r1 _ x Wa Wc H1) as (_ & Wx & Vx & _). destruct (C23_subtraction_is_exact m b c r2 _ y Wb Wc H2) as (_ & Wy & Vy & _).
    pose proof (C26_no_negative_zero_sub m a c r1 _ x Wa Wc Ca Cc Za Zc H1) as Zx. pose proof (C26_no_negative_zero_sub m b c r2 _ y Wb Wc Cb Cc Zb Zc H2) as Zy.
    apply (cmp_of_values m a b x y o); try assumption. rewrite (Qcompare_comp _ _ Vx _ _ Vy). apply cmp_shift.
  - destruct (C23_subtraction_is_exact m c a r1 _ x Wc Wa H1) as (_ & Wx & Vx & _). destruct (C23_subtraction_is_exact m c b r2 _ y Wc Wb H2) as (_ & Wy & Vy & _).
    pose proof (C26_no_negative_zero_sub m c a r1 _ x Wc Wa Cc Ca Zc Za H1) as Zx. pose proof (C26_no_negative_zero_sub m c b r2 _ y Wc Wb Cc Cb Zc Zb H2) as Zy.
    apply (cmp_of_values m a b y x o); try assumption. rewrite (Qcompare_comp _ _ Vy _ _ Vx).
    transitivity (value a + (value c - value a - value b) ?= value b + (value c - value a - value b))%Q; [|apply cmp_shift].
    apply Qcompare_comp; ring.
Qed.
Print Assumptions C60_differences_keep_the_order.
(** Multiplying by a positive number keeps the order, by a negative one reverses it (products that fit). *)
Theorem C60_products_keep_the_order : forall m a b c r1 r2 x y o, regular a -> regular b -> regular c -> ~ negzero a -> ~ negzero b -> product_fits a c -> product_fits b c ->
  mul_to m a c r1 = Ret (Ok tt, x) -> mul_to m b c r2 = Ret (Ok tt, y) -> cmp m a b = Ret o ->
  ((0 < value c)%Q -> cmp m x y = Ret o) /\ ((value c < 0)%Q -> cmp m y x = Ret o).
Proof.
  intros m a b c r1 r2 x y o Ra Rb Rc Za Zb F1 F2 H1 H2 H.
  destruct (C28_multiplication_is_exact m a c r1 _ x Ra Rc F1 H1) as (_ & Vx & (Wx & _) & _). destruct (C28_multiplication_is_exact m b c r2 _ y Rb Rc F2 H2) as (_ & Vy & (Wy & _) & _).
  destruct Ra as (Wa & Ca & Ta & Na), Rb as (Wb & Cb & Tb & Nb), Rc as (Wc & Cc & Tc & Nc).
  pose proof (C26_no_negative_zero_mul m a c r1 _ x Wa Wc Ca Cc Ta Tc H1) as Zx. pose proof (C26_no_negative_zero_mul m b c r2 _ y Wb Wc Cb Cc Tb Tc H2) as Zy.
  split; intros P.
  - apply (cmp_of_values m a b x y o); try assumption. rewrite (Qcompare_comp _ _ Vx _ _ Vy). apply cmp_scale, P.
  - apply (cmp_of_values m a b y x o); try assumption. rewrite (Qcompare_comp _ _ Vy _ _ Vx).
    rewrite <- (Qcompare_antisym). rewrite <- cmp_opp. transitivity (value a * - value c ?= value b * - value c)%Q; [apply Qcompare_comp; ring|]. apply cmp_scale. lra.
Qed.
Print Assumptions C60_products_keep_the_order.
Example C60_example : let a := dec "-1.5" in let b := dec "12345678901.25" in let c := dec "-99.75" in
  regular a /\ regular b /\ regular c /\ ~ negzero a /\ ~ negzero b /\ ~ negzero c /\ product_fits a c /\ product_fits b c /\ (value c < 0)%Q /\ cmp Debug a b = Ret Lt /\
  (exists x y, add_to Debug a c zero = Ret (Ok tt, x) /\ add_to Debug b c zero = Ret (Ok tt, y)) /\ (exists x y, sub_to Debug c a zero = Ret (Ok tt, x) /\ sub_to Debug c b zero = Ret (Ok tt, y)) /\
  (exists x y, mul_to Debug a c zero = Ret (Ok tt, x) /\ mul_to Debug b c zero = Ret (Ok tt, y) /\ cmp Debug y x = Ret Lt).
Proof.
  cbv zeta. do 8 (split; [hyps|]). split; [vm_compute; reflexivity|]. split; [vm_compute; reflexivity|].
  split; [do 2 eexists; split; [vm_compute; reflexivity|]; vm_compute; reflexivity|].
  split; [do 2 eexists; split; [vm_compute; reflexivity|]; vm_compute; reflexivity|].
  do 2 eexists; split; [vm_compute; reflexivity|]; split; [vm_compute; reflexivity|]; vm_compute; reflexivity.
Qed.

(** C62: rounding and printing gives the numeral of the rounded number with exactly [f] fractional digits. *)
Theorem C62_rounded_numerals : forall m a res f d, wf a -> 0 <= f <= 127 -> f < frac_digits a \/ nohidden a -> round_to m a res f = Ret d ->
  exists n, to_string m d (-1) = Ret (numeral_bytes n) /\ canonical n /\ is_minus (n_sign n) = neg a /\ zlength (n_frac n) = f /\ (numeral_value n == round_at (value a) f)%Q.
Proof.
  intros m a res f d Wa Hf HN H. destruct (C38_round_to_is_half_away m a res f d Wa Hf HN H) as (Wd & Vd & Fd & Nd & Hd & _).
  destruct (C08_to_string_is_exact m d Wd Hd) as (n & E & C & S & F & V). exists n. split; [exact E|]. split; [exact C|]. split; [congruence|]. split; [congruence|]. rewrite V. exact Vd.
Qed.
Print Assumptions C62_rounded_numerals.
(** End to end: a numeral of at most 44 integral digits, rounded to at most 36 places. *)
Theorem C62_end_to_end_rounding : forall m s f, numeral_ok s -> n_exp s = None -> zlength (n_int s) <= 44 -> zlength (n_int s) + zlength (n_frac s) <= 65 -> 0 <= f <= 36 ->
  exists a d n, from_str m (numeral_bytes s) = Ret (Ok a) /\ round_to m a zero f = Ret d /\ to_string m d (-1) = Ret (numeral_bytes n) /\ canonical n /\
    is_minus (n_sign n) = is_minus (n_sign s) /\ zlength (n_frac n) = f /\ (numeral_value n == round_at (numeral_value s) f)%Q.
Proof.
  intros m s f OK EX LI L Hf. destruct (within_plain s _ _ OK EX (Z.le_refl _) (Z.le_refl _) L) as (WL & NF & ND).
  destruct (from_str_accepts m s OK WL) as (a & E & [PW PV PN PF PI PT PH PR] & CL).
  assert (U : units_for f <= 4) by (unfold units_for; apply Z.lt_succ_r, Z.div_lt_upper_bound; lia).
  assert (I : int_digits a <= 44) by lia.
  assert (IU : iu a <= 5) by (unfold iu, units_for; apply Z.lt_succ_r, Z.div_lt_upper_bound; lia).
  assert (B : (Qabs (value a) < pow10 44)%Q).
  { eapply Qlt_le_trans; [apply tight_bound; assumption|]. apply pow10_le, I. }
  assert (R : (Qabs (round_at (value a) f) < pow10 (9 * (9 - units_for f)))%Q).
  { eapply Qlt_le_trans; [|apply (pow10_le 45); lia].
    pose proof (round_at_close (value a) f) as C. assert (P : (pow10 (- f) <= 1)%Q) by (rewrite <- pow10_0; apply pow10_le; lia).
    assert (T : (Qabs (round_at (value a) f) <= Qabs (round_at (value a) f - value a) + Qabs (value a))%Q).
    { eapply Qle_trans; [|apply Qabs_triangle]. setoid_replace (round_at (value a) f - value a + value a)%Q with (round_at (value a) f) by ring. apply Qle_refl. }
    assert (X : (pow10 44 + 1 <= pow10 45)%Q) by (vm_compute; discriminate).
    set (u := pow10 44) in *. set (v := pow10 45) in *. set (w := pow10 (- f)) in *. clearbody u v w. lra. }
  assert (F127 : 0 <= f <= 127) by (clear - Hf; lia). assert (S9 : iu a + units_for f <= 9) by (clear - IU U; lia).
  destruct (proj2 (C38_round_to_returns_iff_room m a zero f PW F127 (or_intror PH)) (conj S9 R)) as (d & HD).
  destruct (C62_rounded_numerals m a zero f d PW F127 (or_intror PH) HD) as (n & EN & C & S & F & V).
  exists a, d, n. split; [exact E|]. split; [exact HD|]. split; [exact EN|]. split; [exact C|]. split; [rewrite S; exact PN|]. split; [exact F|]. rewrite V. apply round_at_comp, PV.
Qed.
Print Assumptions C62_end_to_end_rounding.
Example C62_example : exists a d, from_str Debug (bytes "-9999.99995") = Ret (Ok a) /\ round_to Debug a zero 4 = Ret d /\ to_string Debug d (-1) = Ret (bytes "-10000.0000").
Proof. do 2 eexists. split; [vm_compute; reflexivity|]. split; [vm_compute; reflexivity|]. vm_compute. reflexivity. Qed.

(** C63: reading an integer from a string: the numeral's value rounded half away from zero if in range, an error otherwise. *)
Theorem C63_parsed_integers : forall m n, numeral_ok n -> -30 <= numeral_exp n <= 65 -> numeral_digits n <= 65 ->
  exists a, from_str m (numeral_bytes n) = Ret (Ok a) /\
    ((inject_Z (-9223372036854775808) <= numeral_value n /\ numeral_value n <= inject_Z 9223372036854775807)%Q -> as_i64 m a = Ret (Ok (round_away (numeral_value n)))) /\
    (~ (inject_Z (-9223372036854775808) <= numeral_value n /\ numeral_value n <= inject_Z 9223372036854775807)%Q -> as_i64 m a = Ret (Err ExceedsConversionTargetRange)) /\
    (is_minus (n_sign n) = false /\ (numeral_value n <= inject_Z 18446744073709551615)%Q -> as_u64 m a = Ret (Ok (round_away (numeral_value n)))) /\
    (~ (is_minus (n_sign n) = false /\ (numeral_value n <= inject_Z 18446744073709551615)%Q) -> as_u64 m a = Ret (Err ExceedsConversionTargetRange)).
Proof.
  intros m n OK HE HD. destruct (from_str_accepts m n OK (conj HE HD)) as (a & E & [PW PV PN PF PI PT PH PR] & CL).
  destruct (C19_as_i64 m a PW CL) as (I1 & I2). destruct (C20_as_u64 m a PW CL) as (U1 & U2). exists a. split; [exact E|].
  rewrite <- PN. rewrite (round_away_comp _ _ PV) in I1, U1. 
  split; [|split; [|split]]; [intros H; apply I1|intros H; apply I2|intros H; apply U1|intros H; apply U2]; rewrite PV; exact H.
Qed.
Print Assumptions C63_parsed_integers.
(** A written integer is read back. *)
Theorem C63_integers_are_read_back : forall m z, -9223372036854775808 <= z <= 9223372036854775807 ->
  exists d s a, from_i64 m z = Ret d /\ to_string m d (-1) = Ret s /\ from_str m s = Ret (Ok a) /\ as_i64 m a = Ret (Ok z).
Proof.
  intros m z Hz. destruct (C18_from_i64_is_exact m z Hz) as (d & ED & Wd & Cd & Td & Nd & Zd & Vd & Fd & _).
  destruct (C08_to_string_is_exact m d Wd Nd) as (n & ES & _). pose proof (printed_len m d _ Wd Td ES) as L. pose proof (from_i64_units3 m z d Hz ED) as I.
  destruct (print_parse m d _ Wd Nd ES ltac:(lia)) as (a & EA & Wa & Ca & _ & _ & Va & _).
  exists d, (numeral_bytes n), a. split; [exact ED|]. split; [exact ES|]. split; [exact EA|].
  assert (V : (value a == inject_Z z)%Q) by (rewrite Va; exact Vd).
  rewrite (proj1 (C19_as_i64 m a Wa Ca)) by (rewrite V, <- !Zle_Qle; exact Hz). rewrite (round_away_comp _ _ V), round_away_Z. reflexivity.
Qed.
Print Assumptions C63_integers_are_read_back.
Theorem C63_naturals_are_read_back : forall m z, 0 <= z <= 18446744073709551615 ->
  exists d s a, from_u64 m z = Ret d /\ to_string m d (-1) = Ret s /\ from_str m s = Ret (Ok a) /\ as_u64 m a = Ret (Ok z).
Proof.
  intros m z Hz. destruct (C18_from_u64_is_exact m z Hz) as (d & ED & (Wd & Cd & Td & Nd & Zd & Vd & Fd & Sd) & _).
  destruct (C08_to_string_is_exact m d Wd Nd) as (n & ES & _). pose proof (printed_len m d _ Wd Td ES) as L. pose proof (from_u64_units3 m z d Hz ED) as I.
  destruct (print_parse m d _ Wd Nd ES ltac:(lia)) as (a & EA & Wa & Ca & _ & _ & Va & Na & _).
  exists d, (numeral_bytes n), a. split; [exact ED|]. split; [exact ES|]. split; [exact EA|].
  assert (V : (value a == inject_Z z)%Q) by (rewrite Va; exact Vd). assert (N : neg a = false) by (rewrite Na, Sd; apply Z.ltb_ge; lia).
  rewrite (proj1 (C20_as_u64 m a Wa Ca)) by (split; [exact N|rewrite V, <- Zle_Qle; apply Hz]). rewrite (round_away_comp _ _ V), round_away_Z. reflexivity.
Qed.
Print Assumptions C63_naturals_are_read_back.
Example C63_example : exists n a b, numeral_bytes n = bytes "-12345678901234567.50e2" /\ numeral_ok n /\ -30 <= numeral_exp n <= 65 /\ numeral_digits n = 19 /\
  from_str Debug (numeral_bytes n) = Ret (Ok a) /\ as_i64 Debug a = Ret (Ok (-1234567890123456750)) /\
  from_str Debug (bytes "0.5") = Ret (Ok b) /\ as_u64 Debug b = Ret (Ok 1).
Proof.
  exists (mknum (Some true) [1;2;3;4;5;6;7;8;9;0;1;2;3;4;5;6;7] true [5;0] (Some (false, None, [2]))). do 2 eexists.
  split; [vm_compute; reflexivity|]. split; [repeat split; try discriminate; repeat (constructor; [split; vm_compute; discriminate|]); constructor|]. split; [vm_compute; split; discriminate|]. split; [vm_compute; reflexivity|].
  split; [vm_compute; reflexivity|]. split; [vm_compute; reflexivity|]. split; [vm_compute; reflexivity|]. vm_compute. reflexivity.
Qed.
