(** * Properties: the remainder (C37, C53). *)
From Coq Require Import ZArith List Bool String Lia QArith Qabs.
From Verif Require Import Rust Model_Base Model_Cmp Model_Arith Model_Serde Spec Spec_Div Lib Sign Basics QLib DivQ DivBasics AddSubQ MulQ Rem4 Rem5 RemG Spec_Rem RemFull Tests Witness.
Import ListNotations.
Open Scope Z_scope.

(** C37 is false: 2 % 1.000000000000000001 is 0.999999999999999999, what is
    returned (in both builds) is 0.000000000000000002. *)
Theorem C37_truncated_remainder_refuted : exists d, (forall m, rem_to m (dec "2") (dec "1.000000000000000001") zero = Ret (Ok tt, d)) /\
  (forall m, to_string m d (-1) = Ret (bytes "0.000000000000000002")) /\
  ~ exists q : Z, (value (dec "2") == value (dec "1.000000000000000001") * inject_Z q + value d)%Q.
Proof.
  eexists. split; [intros [|]; vm_compute; reflexivity|]. split; [intros [|]; vm_compute; reflexivity|].
  intros [q H]. revert H. unfold Qeq, Qplus, Qmult, inject_Z.
  set (a := value (dec "2")). set (b := value (dec "1.000000000000000001")). match goal with |- context [value ?x] => set (c := value x) end.
  vm_compute in a. vm_compute in b. vm_compute in c. subst a b c. cbn [Qnum Qden]. lia.
Qed.
Print Assumptions C37_truncated_remainder_refuted.

(** What holds: whenever long division guesses the units of the quotient
    right, and something is returned, it is the truncated remainder. *)
Theorem C37_truncated_remainder_partial : forall m a b res rs d, wf a -> wf b -> ~ (value b == 0)%Q ->
  guesses_right (scaled a) (scaled b) ->
  rem_to m a b res = Ret (rs, d) -> rs = Ok tt /\
  (exists q : Z, (value a == value b * inject_Z q + value d)%Q /\ (Qabs (value d) < Qabs (value b))%Q) /\
  (~ (value d == 0)%Q -> neg d = neg a) /\ ~ negzero d /\
  wf d /\ clean d /\ (tight a -> tight d) /\ (nohidden a -> nohidden b -> nohidden d).
Proof.
  intros m a b res rs d Ha Hb Nb T H. destruct (rem_to_run m a b res rs d Ha Hb Nb T H) as (E & W & C & Ti & N & Z & S & Q). auto 10.
Qed.
Print Assumptions C37_truncated_remainder_partial.
(** The guesses are right if the non-zero digits of the divisor lie within
    two consecutive units - at most ten digits always do - and if the dividend is the smaller one. *)
Theorem C37_two_units : forall a b, wf b -> significant_units 2 b -> guesses_right (scaled a) (scaled b).
Proof. intros. apply significant_right; assumption. Qed.
Print Assumptions C37_two_units.
Theorem C37_smaller_dividend : forall a b, wf a -> wf b -> (Qabs (value a) < Qabs (value b))%Q -> guesses_right (scaled a) (scaled b) /\ guesses_small (scaled a) (scaled b).
Proof.
  intros a b Ha Hb H. apply (Qabs_lt_amag a b Ha Hb) in H. change amag with scaled in H. pose proof (amag_nonneg b Hb) as P. change amag with scaled in P.
  set (x := scaled a) in *. set (y := scaled b) in *. clearbody x y. split; intros len j Hl By Hj G; exfalso;
    (assert (1 <= base ^ j) by (pose proof (pow_base_pos j Hj); lia)); nia.
Qed.
Print Assumptions C37_smaller_dividend.
(** So: the remainder of every division by a divisor of at most ten significant digits. *)
Theorem C37_ten_digit_divisors_partial : forall m a b res rs d x k, wf a -> wf b ->
  magnitude b = x * 10 ^ k -> 0 < x < 10 ^ 10 -> 0 <= k ->
  rem_to m a b res = Ret (rs, d) -> rs = Ok tt /\
  (exists q : Z, (value a == value b * inject_Z q + value d)%Q /\ (Qabs (value d) < Qabs (value b))%Q) /\ (~ (value d == 0)%Q -> neg d = neg a).
Proof.
  intros m a b res rs d x k Ha Hb E Hx Hk H.
  assert (Nb : ~ (value b == 0)%Q). { rewrite value_zero_iff by exact Hb. rewrite E. assert (0 < 10 ^ k) by (apply Z.pow_pos_nonneg; lia). nia. }
  destruct (C37_truncated_remainder_partial m a b res rs d Ha Hb Nb (significant_right a b Hb (ten_digits b x k Hx Hk E)) H) as (E1 & E2 & E3 & _). auto.
Qed.
Print Assumptions C37_ten_digit_divisors_partial.
(** And of every division whose quotient has no group of nine integral digits
    (nor the first nine digits after the point) within ten of 10^9. *)
Theorem C37_tame_quotients : forall a b, wf a -> wf b -> ~ (value b == 0)%Q -> tame_integral a b -> guesses_right (scaled a) (scaled b) /\ guesses_small (scaled a) (scaled b).
Proof. exact tame_right. Qed.
Print Assumptions C37_tame_quotients.
Theorem C37_tame_remainder_partial : forall m a b res rs d, wf a -> wf b -> ~ (value b == 0)%Q -> tame_integral a b ->
  rem_to m a b res = Ret (rs, d) -> rs = Ok tt /\
  (exists q : Z, (value a == value b * inject_Z q + value d)%Q /\ (Qabs (value d) < Qabs (value b))%Q) /\ (~ (value d == 0)%Q -> neg d = neg a).
Proof.
  intros m a b res rs d Ha Hb Nb T H.
  destruct (C37_truncated_remainder_partial m a b res rs d Ha Hb Nb (proj1 (tame_right a b Ha Hb Nb T)) H) as (E1 & E2 & E3 & _). auto.
Qed.
Print Assumptions C37_tame_remainder_partial.
Example C37_tame_example : let a := dec "98765432109876543210987654321098765.4321" in let b := dec "-3.14159265358979323846264338" in
  tame_integral a b /\ wf a /\ wf b /\ ~ (value b == 0)%Q /\ iu a + fu b <= 17 /\
  exists d, rem_to Debug a b zero = Ret (Ok tt, d) /\ to_string Debug d (-1) = Ret (bytes "3.11124573243848137515516696").
Proof.
  intros a b. split; [apply (tame_integral_decide (-4)); vm_compute; reflexivity|]. subst a b. hyps. eexists. split; [vm_compute; reflexivity|]. vm_compute. reflexivity.
Qed.
(** Regular operands have regular remainders. *)
Theorem C37_regular_partial : forall m a b res rs d, regular a -> regular b -> ~ (value b == 0)%Q ->
  guesses_right (scaled a) (scaled b) -> rem_to m a b res = Ret (rs, d) -> regular d /\ ~ negzero d.
Proof.
  intros m a b res rs d (Ha & _ & Ta & Na) (Hb & _ & _ & Nb) Vb T H.
  destruct (rem_to_run m a b res rs d Ha Hb Vb T H) as (E & W & C & Ti & N & Z & S & Q). split; [|exact Z]. split; [exact W|]. split; [exact C|]. split; auto.
Qed.
Print Assumptions C37_regular_partial.
(** Deciding the hypothesis for given numbers. *)
Lemma guesses_decide x y len J : 2 <= len -> base ^ (len - 1) <= y < base ^ len -> x < y * base ^ Z.of_nat J ->
  forallb (fun j => second_guess x y len (Z.of_nat j) =? quotient_unit x y (Z.of_nat j)) (seq 0 J) = true -> guesses_right x y.
Proof.
  intros Hl By HJ Hall len' j Hl' By' Hj Hx.
  assert (len' = len).
  { assert (A : base ^ (len' - 1) < base ^ len) by lia. assert (B : base ^ (len - 1) < base ^ len') by lia. clear - A B Hl Hl'.
    apply Z.pow_lt_mono_r_iff in A; [|reflexivity|lia]. apply Z.pow_lt_mono_r_iff in B; [|reflexivity|lia]. lia. }
  subst len'. assert (Hy : 0 < y) by (pose proof (pow_base_pos (len - 1) ltac:(lia)); lia).
  assert (L : j < Z.of_nat J).
  { assert (A : base ^ j < base ^ Z.of_nat J) by (apply (Z.mul_lt_mono_pos_l y); lia). clear - A Hj. apply Z.pow_lt_mono_r_iff in A; [exact A|reflexivity|lia]. }
  rewrite forallb_forall in Hall. specialize (Hall (Z.to_nat j) ltac:(apply in_seq; lia)). rewrite Z2Nat.id in Hall by exact Hj. apply Z.eqb_eq, Hall.
Qed.
Lemma small_decide x y len J : 2 <= len -> base ^ (len - 1) <= y < base ^ len -> x < y * base ^ Z.of_nat J ->
  forallb (fun j => first_guess x y len (Z.of_nat j) <? base) (seq 0 J) = true -> guesses_small x y.
Proof.
  intros Hl By HJ Hall len' j Hl' By' Hj Hx.
  assert (len' = len).
  { assert (A : base ^ (len' - 1) < base ^ len) by lia. assert (B : base ^ (len - 1) < base ^ len') by lia. clear - A B Hl Hl'.
    apply Z.pow_lt_mono_r_iff in A; [|reflexivity|lia]. apply Z.pow_lt_mono_r_iff in B; [|reflexivity|lia]. lia. }
  subst len'. assert (Hy : 0 < y) by (pose proof (pow_base_pos (len - 1) ltac:(lia)); lia).
  assert (L : j < Z.of_nat J).
  { assert (A : base ^ j < base ^ Z.of_nat J) by (apply (Z.mul_lt_mono_pos_l y); lia). clear - A Hj. apply Z.pow_lt_mono_r_iff in A; [exact A|reflexivity|lia]. }
  rewrite forallb_forall in Hall. specialize (Hall (Z.to_nat j) ltac:(apply in_seq; lia)). rewrite Z2Nat.id in Hall by exact Hj. apply Z.ltb_lt, Hall.
Qed.
Ltac guesses len J := first [apply (guesses_decide _ _ len J)|apply (small_decide _ _ len J)]; [lia|split; vm_compute; (discriminate || reflexivity)|vm_compute; reflexivity|vm_compute; reflexivity].

Example C37_example : let a := dec "-123456789012345678901234567890.25" in let b := dec "987654321.5" in let c := dec "31415926535897932384.62643383279" in
  guesses_right (scaled a) (scaled c) /\
  wf a /\ wf b /\ wf c /\ ~ (value b == 0)%Q /\ significant_units 2 b /\ iu a + fu b <= 17 /\ iu a + fu c <= 17 /\ regular a /\ regular b /\
  (exists d, rem_to Release a b zero = Ret (Ok tt, d) /\ to_string Debug d (-1) = Ret (bytes "-722414854.25")) /\
  (exists d, rem_to Release a c zero = Ret (Ok tt, d) /\ to_string Debug d (-1) = Ret (bytes "-28701627560650066825.35984256045")).
Proof.
  intros a b c. split; [guesses 12 10%nat|]. subst a b c. hyps.
  - sigu 987654321500000000 0.
  - eexists. split; [vm_compute; reflexivity|]. vm_compute. reflexivity.
  - eexists. split; [vm_compute; reflexivity|]. vm_compute. reflexivity.
Qed.

(** C53 is false. In a debug build assertions fail for a divisor of two units;
    and in both builds a dividend that declares superfluous integral digits, as
    products do, does not fit: 1 * 1 * 1 % 2.000... *)
Theorem C53_remainder_never_panics_refuted :
  rem_to Debug (dec "1000000000") (dec "1.000000001") zero = Panic PAssert /\
  rem_to Debug (dec "500000000000000000999999998000000000") (dec "500000000000000000999999999") zero = Panic PAssert /\
  (exists p p', (forall m, mul_to m (dec "1") (dec "1") zero = Ret (Ok tt, p')) /\ (forall m, mul_to m p' (dec "1") zero = Ret (Ok tt, p)) /\ regular p /\
    forall m, rem_to m p (dec "2.0000000000000000000000000000000000000000000000000000000000000001") zero = Panic PIndex).
Proof.
  split; [vm_compute; reflexivity|]. split; [vm_compute; reflexivity|]. do 2 eexists. split; [intros [|]; vm_compute; reflexivity|]. split; [intros [|]; vm_compute; reflexivity|]. split; [hyps|]. intros [|]; vm_compute; reflexivity.
Qed.
Print Assumptions C53_remainder_never_panics_refuted.
(** What holds, exactly: with right guesses (and first guesses below 10^9, in
    a debug build) a panic needs a non-zero dividend smaller than the divisor, of fewer fractional
    units, whose integral units do not fit beside the fractional units of the divisor, or operands
    that are [too_long] ([Spec_Rem]); and then there is one. *)
Theorem C53_remainder_returns_partial : forall m a b res, wf a -> wf b -> ~ (value b == 0)%Q -> ~ too_long m a b ->
  guesses_right (scaled a) (scaled b) -> (m = Debug -> guesses_small (scaled a) (scaled b)) ->
  (value a == 0)%Q \/ (Qabs (value b) <= Qabs (value a))%Q \/ fu b <= fu a \/ iu a + fu b <= 9 ->
  exists d, rem_to m a b res = Ret (Ok tt, d).
Proof. exact rem_to_returns. Qed.
Print Assumptions C53_remainder_returns_partial.
Theorem C53_small_dividend_panics_refuted : forall m a b res, wf a -> wf b -> ~ (value a == 0)%Q -> (Qabs (value a) < Qabs (value b))%Q ->
  fu a < fu b -> 9 < iu a + fu b -> rem_to m a b res = Panic PIndex.
Proof. exact rem_to_panics. Qed.
Print Assumptions C53_small_dividend_panics_refuted.
Theorem C53_too_long_panics_refuted : forall m a b res, wf a -> wf b -> too_long m a b -> exists p, rem_to m a b res = Panic p.
Proof. exact rem_to_too_long. Qed.
Print Assumptions C53_too_long_panics_refuted.
(** 10^80 and a divisor of 0.8 (of 0.08, whose digits begin one place later) written with 81 fractional digits. *)
Example C53_too_long_example : let a := mkfd 81 0 [1; 0; 0; 0; 0; 0; 0; 0; 100000000] in let b := mkfd 0 81 [3; 0; 0; 0; 0; 0; 0; 0; 800000000] in let c := mkfd 0 81 [3; 0; 0; 0; 0; 0; 0; 0; 80000000] in
  wf a /\ wf b /\ wf c /\ too_long Debug a b /\ ~ too_long Release a b /\ too_long Release a c /\
  rem_to Debug a b zero = Panic PIndex /\ (exists d, rem_to Release a b zero = Ret (Ok tt, d)) /\ forall m, rem_to m a c zero = Panic PIndex.
Proof.
  intros a b c. assert (Wa : wf a) by (unfold a; wfd). assert (Wb : wf b) by (unfold b; wfd). assert (Wc : wf c) by (unfold c; wfd).
  split; [exact Wa|]. split; [exact Wb|]. split; [exact Wc|]. split.
  { split; [reflexivity|]. split; [vm_compute; discriminate|]. split; [vm_compute; discriminate|]. left. reflexivity. }
  split.
  { intros (_ & _ & _ & [X|(k & (K1 & K2) & K)]); [discriminate X|]. assert (k = 1); [|subst k; vm_compute in K; apply K; reflexivity].
    assert (P : forall x y, (pow10 x < pow10 y)%Q -> x < y) by (intros x y H; apply Z.nle_gt; intros L; apply (Qlt_not_le _ _ H), pow10_mono, L).
    assert (B1 : (pow10 (-1) <= Qabs (value b))%Q) by (vm_compute; discriminate). assert (B2 : (Qabs (value b) < pow10 0)%Q) by (vm_compute; reflexivity).
    assert (X1 : -1 + 9 * k < 9) by (apply P; rewrite pow10_add; eapply Qle_lt_trans; [|exact K2]; apply Qmult_le_compat_r; [exact B1|apply Qlt_le_weak, pow10_pos]).
    assert (X2 : 0 < 0 + 9 * k) by (apply P; rewrite pow10_add; eapply Qle_lt_trans; [exact K1|]; apply Qmult_lt_compat_r; [apply pow10_pos|exact B2]). lia. }
  split.
  { split; [reflexivity|]. split; [vm_compute; discriminate|]. split; [vm_compute; discriminate|]. right. exists 1. split; [split; vm_compute; (reflexivity || discriminate)|vm_compute; discriminate]. }
  split; [vm_compute; reflexivity|]. split; [eexists; vm_compute; reflexivity|]. intros [|]; vm_compute; reflexivity.
Qed.
(** Divisors within one unit leave a remainder in both builds. *)
Theorem C53_one_unit_divisors_partial : forall m a b res, wf a -> wf b -> significant_units 1 b -> iu a + fu b <= 9 ->
  exists d, rem_to m a b res = Ret (Ok tt, d).
Proof.
  intros m a b res Ha Hb S Rm.
  assert (Nb : ~ (value b == 0)%Q). { rewrite value_zero_iff by exact Hb. destruct S as (x & k & Hx & Hk & ->). pose proof (pow_base_pos k Hk). nia. }
  assert (S2 : significant_units 2 b).
  { destruct S as (x & k & Hx & Hk & E). exists x, k. split; [|auto]. change (base ^ 1) with base in Hx. change (base ^ 2) with (base * base). unfold base in *. lia. }
  apply C53_remainder_returns_partial; auto; [apply roomy; [exact Ha|lia]|apply significant_right; assumption|intros _; apply significant_small; assumption].
Qed.
Print Assumptions C53_one_unit_divisors_partial.
(** So do divisions with a tame quotient. *)
Theorem C53_tame_quotients_partial : forall m a b res, wf a -> wf b -> ~ (value b == 0)%Q -> tame_integral a b -> iu a + fu b <= 9 ->
  exists d, rem_to m a b res = Ret (Ok tt, d).
Proof.
  intros m a b res Ha Hb Nb T Rm. destruct (tame_right a b Ha Hb Nb T) as [T1 T2]. apply C53_remainder_returns_partial; auto. apply roomy; [exact Ha|lia].
Qed.
Print Assumptions C53_tame_quotients_partial.
Example C53_tame_example : let a := dec "98765432109876543210987654321098765.4321" in let b := dec "-3.14159265358979323846264338" in
  tame_integral a b /\ wf a /\ wf b /\ ~ (value b == 0)%Q /\ iu a + fu b <= 9 /\ exists d, rem_to Debug a b zero = Ret (Ok tt, d).
Proof.
  intros a b. split; [apply (tame_integral_decide (-4)); vm_compute; reflexivity|]. subst a b. hyps. eexists. vm_compute. reflexivity.
Qed.
Example C53_example : let a := dec "123456789012345678901234567890.25" in let b := dec "-7000000000" in let c := dec "31415926535897932384.62643383279" in
  guesses_right (scaled a) (scaled c) /\ guesses_small (scaled a) (scaled c) /\ (Qabs (value c) <= Qabs (value a))%Q /\
  wf a /\ wf b /\ wf c /\ ~ (value c == 0)%Q /\ iu a + fu c <= 17 /\ significant_units 2 b /\ iu a + fu b <= 9 /\
  (exists d, rem_to Debug a c zero = Ret (Ok tt, d)) /\ (exists d, rem_to Debug a b zero = Ret (Ok tt, d)).
Proof.
  intros a b c. split; [guesses 12 10%nat|]. split; [guesses 12 10%nat|]. subst a b c. split; [vm_compute; discriminate|]. hyps.
  - sigu 7000000000 0.
  - eexists. vm_compute. reflexivity.
  - eexists. vm_compute. reflexivity.
Qed.
