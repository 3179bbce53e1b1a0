(** * Properties: laws of division that debug builds keep for divisors of any length (C98).
    [nothing_cut] is in [Spec_Guess]. *)
From Coq Require Import ZArith Zquot List Bool String Lia QArith Qabs Qround Lqa.
From Verif Require Import Rust Model_Base Model_Cmp Model_Decimal Model_Arith Model_Serde Spec Spec_Div Spec_Guess Lib QLib Sign Basics AddSub AddSubQ Cmp DivBasics Div3 Div5 DivQ DivFit Laws MulQ RoundQ RemG Rem4 Rem7
  Conv History Prop_Compare Prop_AddSub Prop_Conv Prop_Mul Prop_Div Prop_Rem Prop_Laws Prop_Safe Tests Witness.
Import ListNotations.
Open Scope Z_scope.

(** A quotient that ends is found exactly. *)
Theorem C98_exact_quotients : forall a b res incr d z k, wf a -> wf b -> ~ (value b == 0)%Q -> nothing_cut a b -> 0 <= incr -> sane_request a b incr ->
  div_to Debug a b res incr = Ret (Ok tt, d) ->
  (value a / value b == inject_Z z * pow10 (- k))%Q -> k <= frac_digits d -> (value d == value a / value b)%Q.
Proof.
  intros a b res incr d z k Ha Hb Nb NC Hi Rm H E K.
  destruct (C97_debug_quotients_are_right a b res incr d Ha Hb Nb NC Hi Rm H) as (V & _). rewrite V. exact (truncate_at_exact _ z k _ K E).
Qed.
Print Assumptions C98_exact_quotients.

(** A product divided by a factor is the other factor, or the call panics. *)
Theorem C98_division_undoes_multiplication : forall a b res res' incr p q, regular a -> regular b -> product_fits a b ->
  mul_to Debug a b res = Ret (Ok tt, p) -> ~ (value b == 0)%Q -> 0 <= incr -> sane_request p b incr ->
  div_to Debug p b res' incr = Ret (Ok tt, q) -> (value q == value a)%Q /\ (~ negzero a -> eq Debug q a = Ret true).
Proof.
  intros a b res res' incr p q Ra Rb F HM Nb Hi Rm HD.
  destruct (C28_multiplication_is_exact Debug a b res _ p Ra Rb F HM) as (_ & V & Rp & FD).
  destruct Ra as (Wa & Ca & Ta & Na). destruct Rb as (Wb & _). pose proof Rp as (Wp & _).
  assert (E : (value p / value b == value a)%Q) by (rewrite V; field; exact Nb).
  assert (X : (value q == value a)%Q /\ wf q /\ clean q /\ ~ negzero q).
  { destruct (Qeq_dec (value a) 0) as [Z|Z].
    - assert (Vp : (value p == 0)%Q) by (rewrite V, Z; ring). rewrite (DivQ.div_to_zero Debug p b res' incr Wp Wb Vp Nb) in HD. injection HD as <-. rewrite Z. hyps.
    - assert (Vp : ~ (value p == 0)%Q) by (rewrite V; intros X; apply Qmult_integral in X; tauto).
      specialize (FD Z Nb). destruct F as [F1 F2]. pose proof (frac_le_fu a Wa) as [[L0 L1] _]. pose proof (frac_le_fu b Wb) as [[L2 _] _].
      assert (FA : fu a <= 4) by (unfold fu; etransitivity; [apply (units_mono (frac_digits a) (frac_digits a + frac_digits b)); lia|exact F1]).
      assert (FP : fu a <= fu p) by (unfold fu; apply units_mono; lia). assert (FB : fu b <= fu p) by (unfold fu; apply units_mono; lia).
      pose proof (or_introl FB : nothing_cut p b) as NC.
      destruct (C97_debug_quotients_are_right p b res' incr q Wp Wb Nb NC Hi Rm HD) as (_ & Wq & Cq & _ & NZ & _). split; [|auto].
      destruct (C97_debug_quotient_units p b res' incr q Wp Wb Vp Nb NC Hi Rm HD) as (U1 & U2 & U3).
      rewrite <- E. destruct (nohidden_multiple a (frac_digits a) Wa Na (Z.le_refl _)) as (z & Hz).
      apply (C98_exact_quotients p b res' incr q z (frac_digits a) Wp Wb Nb NC Hi Rm HD); [rewrite E; exact Hz|].
      assert (IQ : iu q <= iu a).
      { apply (power_units (Qabs (value p / value b)) (iu q) (iu a)); [rewrite E; apply value_bound, Wa|apply (wf_counts a Wa)|exact U2]. }
      rewrite U3. pose proof (wf_counts a Wa) as CA. pose proof (wf_counts b Wb) as CB. clear - IQ FA FP CA CB L1. lia. }
  destruct X as (X & Wq & Cq & NZ). split; [exact X|]. intros NA. apply C15_equal_numbers_compare_equal_partial; assumption.
Qed.
Print Assumptions C98_division_undoes_multiplication.

(** A decimal divided by itself is one, or the call panics. *)
Theorem C98_division_by_itself : forall a res incr q, wf a -> ~ (value a == 0)%Q -> 0 <= incr -> sane_request a a incr ->
  div_to Debug a a res incr = Ret (Ok tt, q) -> (value q == 1)%Q /\ eq Debug q one = Ret true.
Proof.
  intros a res incr q Wa Nz Hi Rm H.
  destruct (C97_debug_quotients_are_right a a res incr q Wa Wa Nz (or_introl (Z.le_refl _)) Hi Rm H) as (V & Wq & Cq & _ & NZ & _).
  assert (E : (value a / value a == 1)%Q) by (field; exact Nz). pose proof (frac_le_fu q Wq) as [[L0 L1] _].
  assert (X : (value q == 1)%Q).
  { rewrite V, <- E. apply (truncate_at_exact _ 1 0); [exact L0|]. rewrite E. reflexivity. }
  split; [exact X|]. apply C15_equal_numbers_compare_equal_partial; try assumption; [hyps|hyps].
Qed.
Print Assumptions C98_division_by_itself.

(** The order of the dividends is kept between quotients with as many digits behind the point, and up to the last place otherwise. *)
Theorem C98_order : forall a a' b res res' incr incr' x y, wf a -> wf a' -> wf b -> (0 < value b)%Q -> nothing_cut a b -> nothing_cut a' b ->
  0 <= incr -> 0 <= incr' -> sane_request a b incr -> sane_request a' b incr' ->
  div_to Debug a b res incr = Ret (Ok tt, x) -> div_to Debug a' b res' incr' = Ret (Ok tt, y) -> (value a <= value a')%Q ->
  (value x < value y + pow10 (- Z.min (frac_digits x) (frac_digits y)))%Q /\ (frac_digits x = frac_digits y -> (value x <= value y)%Q /\ cmp Debug x y <> Ret Gt).
Proof.
  intros a a' b res res' incr incr' x y Wa Wa' Wb Pb NC NC' Hi Hi' Rm Rm' H H' L. assert (Nb : ~ (value b == 0)%Q) by (intros X; rewrite X in Pb; discriminate).
  destruct (C97_debug_quotients_are_right a b res incr x Wa Wb Nb NC Hi Rm H) as (V & Wx & Cx & _ & Zx & _).
  destruct (C97_debug_quotients_are_right a' b res' incr' y Wa' Wb Nb NC' Hi' Rm' H') as (V' & Wy & Cy & _ & Zy & _).
  assert (LQ : (value a / value b <= value a' / value b)%Q) by (apply Qmult_le_compat_r; [exact L|]; apply Qlt_le_weak, Qinv_lt_0_compat, Pb).
  split; [rewrite V, V'; apply truncate_at_order; exact LQ|]. intros F.
  assert (X : (value x <= value y)%Q) by (rewrite V, V', F; apply truncate_at_mono; exact LQ).
  split; [exact X|]. rewrite cmp_numeric_nz by assumption. intros G. injection G as G. apply Qgt_alt in G. apply (Qlt_irrefl (value x)). eapply Qle_lt_trans; [exact X|exact G].
Qed.
Print Assumptions C98_order.

Lemma shift_guesses x y len j n : 2 <= len -> 0 <= j -> 0 < y -> second_guess (x * base ^ Z.of_nat n) y len (j + Z.of_nat n) = second_guess x y len j /\ quotient_unit (x * base ^ Z.of_nat n) y (j + Z.of_nat n) = quotient_unit x y j.
Proof.
  intros Hl Hj Hy. induction n as [|n IH]; [change (Z.of_nat 0) with 0; rewrite Z.pow_0_r, Z.mul_1_r, Z.add_0_r; auto|].
  destruct IH as [I1 I2]. replace (Z.of_nat (S n)) with (Z.of_nat n + 1) by lia. rewrite base_S by lia. replace (x * (base * base ^ Z.of_nat n)) with (x * base ^ Z.of_nat n * base) by ring.
  rewrite Z.add_assoc. rewrite second_guess_shift by lia. split; [exact I1|]. rewrite <- I2.
  set (x' := x * base ^ Z.of_nat n). set (k := j + Z.of_nat n). assert (K : 0 <= k) by lia. clearbody x' k. unfold quotient_unit.
  assert (R : rest (x' * base) y (k + 1) = rest x' y k * base).
  { unfold rest. replace (k + 1 + 1) with (1 + (k + 1)) by lia. rewrite (base_pow_split 1), Z.pow_1_r by lia. replace (y * (base * base ^ (k + 1))) with (y * base ^ (k + 1) * base) by ring.
    apply Z.mul_mod_distr_r; [|discriminate]. pose proof (pow_base_pos (k + 1) ltac:(lia)). apply Z.neq_mul_0. lia. }
  rewrite R, base_S by lia. replace (y * (base * base ^ k)) with (y * base ^ k * base) by ring. apply Z.div_mul_cancel_r; [|discriminate].
  pose proof (pow_base_pos k K). apply Z.neq_mul_0. lia.
Qed.

Lemma pow_two A i j : 0 <= i -> 0 <= j -> A * base ^ i * base ^ j = A * base ^ (i + j).
Proof. intros Hi Hj. rewrite base_pow_split by assumption. ring. Qed.

(** The integral units of a quotient are the units that a remainder needs. *)
Lemma integral_guesses A B fa fb F : 0 <= A -> 0 < B -> 0 <= fa <= 9 -> 0 <= fb <= 9 -> 1 <= F -> right_but_last (A * base ^ (F + fb)) (B * base ^ fa) ->
  guesses_right (A * base ^ (9 - fa)) (B * base ^ (9 - fb)).
Proof.
  intros HA HB Ha Hb HF G. set (X := A * base ^ (F + fb)) in *. set (Y := B * base ^ fa) in *.
  assert (PY : 0 < Y) by (apply Z.mul_pos_pos; [exact HB|apply pow_base_pos; lia]).
  assert (PB : 0 < B * base ^ (9 - fb)) by (apply Z.mul_pos_pos; [exact HB|apply pow_base_pos; lia]).
  intros len j Hl By Hj Gj.
  assert (EF : Z.of_nat (Z.to_nat F) = F) by (clear - HF; lia).
  assert (EX : A * base ^ (9 - fa) * base ^ (fa + fb) * base ^ Z.of_nat (Z.to_nat F) = X * base ^ 9).
  { unfold X. rewrite EF, !pow_two by (clear - HF Ha Hb; lia). do 2 f_equal. clear. lia. }
  assert (EY : B * base ^ (9 - fb) * base ^ (fa + fb) = Y * base ^ 9) by (unfold Y; rewrite !pow_two by (clear - HF Ha Hb; lia); do 2 f_equal; clear; lia).
  destruct (Z.lt_ge_cases (len + (fa + fb) - 9) 2) as [C|C].
  - assert (YS : Y < base). 
    { apply (Z.mul_lt_mono_pos_r (base ^ 9)); [reflexivity|]. rewrite <- EY. apply Z.lt_le_trans with (base ^ len * base ^ (fa + fb)); [apply Z.mul_lt_mono_pos_r; [apply pow_base_pos; clear - Ha Hb; lia|apply By]|].
      rewrite <- base_pow_split by (clear - Hl Ha Hb; lia). replace (base * base ^ 9) with (base ^ 10) by reflexivity. apply Z.pow_le_mono_r; [reflexivity|clear - C; lia]. }
    assert (BS : B < base).
    { apply Z.le_lt_trans with (2 := YS). unfold Y. pose proof (pow_base_pos fa ltac:(lia)) as P. clear - P HB. nia. }
    apply (two_units_right _ _ B (9 - fb)); try assumption; [|clear - Hb; lia|reflexivity]. assert (base < base ^ 2) by reflexivity. clear - H BS HB. lia.
  - destruct (guess_scale (A * base ^ (9 - fa)) (B * base ^ (9 - fb)) len j (fa + fb) Hl Hj ltac:(clear - Ha Hb; lia) PB) as (_ & E2 & E3). rewrite <- E2, <- E3. clear E2 E3.
    assert (PE : 0 < B * base ^ (9 - fb) * base ^ (fa + fb)) by (apply Z.mul_pos_pos; [exact PB|apply pow_base_pos; clear - Ha Hb; lia]).
    destruct (shift_guesses (A * base ^ (9 - fa) * base ^ (fa + fb)) (B * base ^ (9 - fb) * base ^ (fa + fb)) (len + (fa + fb)) j (Z.to_nat F) ltac:(clear - Hl Ha Hb; lia) Hj PE) as [S1 S2]. rewrite <- S1, <- S2. clear S1 S2.
    rewrite EX, EY. replace (len + (fa + fb)) with (len + (fa + fb) - 9 + 9) by (clear; lia). set (l := len + (fa + fb) - 9) in *. set (k := j + Z.of_nat (Z.to_nat F)).
    assert (K : 1 <= k) by (unfold k; clear - EF HF Hj; lia).
    destruct (guess_scale X Y l k 9 C ltac:(clear - K; lia) ltac:(clear; lia) PY) as (_ & E2 & E3). rewrite E2, E3. apply G; try assumption.
    + assert (BB : base ^ (l - 1) * base ^ 9 <= Y * base ^ 9 < base ^ l * base ^ 9).
      { rewrite <- EY, <- !base_pow_split by (clear - C Hl; lia). unfold l. replace (len + (fa + fb) - 9 - 1 + 9) with (len - 1 + (fa + fb)) by (clear; lia). replace (len + (fa + fb) - 9 + 9) with (len + (fa + fb)) by (clear; lia).
        rewrite (base_pow_split (len - 1)), (base_pow_split len) by (clear - Hl Ha Hb; lia). pose proof (pow_base_pos (fa + fb) ltac:(clear - Ha Hb; lia)) as P. split; [apply Z.mul_le_mono_nonneg_r; [clear - P; lia|apply By]|apply Z.mul_lt_mono_pos_r; [exact P|apply By]]. }
      assert (P9 : 0 < base ^ 9) by reflexivity. split; [apply (Z.mul_le_mono_pos_r _ _ _ P9), BB|apply (Z.mul_lt_mono_pos_r _ _ _ P9), BB].
    + assert (P9 : 0 < base ^ 9) by reflexivity. apply (Z.mul_le_mono_pos_r _ _ _ P9). rewrite <- EX. unfold k. rewrite EF. rewrite (base_pow_split j) by (clear - Hj HF; lia).
      replace (Y * (base ^ j * base ^ F) * base ^ 9) with (Y * base ^ 9 * base ^ j * base ^ F) by ring. rewrite <- EY.
      replace (B * base ^ (9 - fb) * base ^ (fa + fb) * base ^ j * base ^ F) with (B * base ^ (9 - fb) * base ^ j * (base ^ (fa + fb) * base ^ F)) by ring.
      rewrite <- (Z.mul_assoc (A * base ^ (9 - fa))). apply Z.mul_le_mono_nonneg_r; [apply Z.mul_nonneg_nonneg; apply Z.pow_nonneg; discriminate|exact Gj].
Qed.

Lemma quotient_gives_guesses a b res incr q : wf a -> wf b -> ~ (value b == 0)%Q -> nothing_cut a b -> 0 <= incr -> sane_request a b incr ->
  div_to Debug a b res incr = Ret (Ok tt, q) -> 0 < frac_digits q -> guesses_right (scaled a) (scaled b).
Proof.
  intros Wa Wb Nb NC Hi Rm HD HF.
  destruct (C97_debug_quotients_are_right a b res incr q Wa Wb Nb NC Hi Rm HD) as (_ & Wq & _).
  pose proof (wf_counts a Wa) as CA. pose proof (wf_counts b Wb) as CB. pose proof (wf_counts q Wq) as CQ.
  destruct (Qeq_dec (value a) 0) as [Va|Va].
  { rewrite (div_to_zero Debug a b res incr Wa Wb Va Nb) in HD. injection HD as <-. discriminate HF. }
  destruct (proj1 (C97_debug_returns_iff a b res incr Wa Wb Nb NC Hi Rm)) as (_ & _ & G2); [eauto|].
  destruct (C97_debug_quotient_units a b res incr q Wa Wb Va Nb NC Hi Rm HD) as (U1 & U2 & U3).
  specialize (G2 (iu q) ltac:(lia) U1 U2). cbv zeta in G2. unfold scaled. 
  apply (integral_guesses (magnitude a) (magnitude b) (fu a) (fu b) (Z.min (9 - iu q) (asked_units a b incr))); try assumption.
  - apply magnitude_nonneg, Wa.
  - rewrite value_zero_iff in Nb by assumption. pose proof (magnitude_nonneg b Wb). lia.
  - lia.
  - lia.
  - unfold asked_units. clear - U3 HF. lia.
Qed.

(** If a debug build returned a quotient with digits behind the point, the remainder of the same operands
    is right in every build, and fits the quotient. *)
Theorem C98_division_and_remainder_agree : forall m a b res res' incr q rs r, wf a -> wf b -> ~ (value b == 0)%Q -> nothing_cut a b -> 0 <= incr -> sane_request a b incr ->
  div_to Debug a b res incr = Ret (Ok tt, q) -> 0 < frac_digits q -> rem_to m a b res' = Ret (rs, r) ->
  rs = Ok tt /\ (value a == value b * inject_Z (truncate (value q)) + value r)%Q /\ (Qabs (value r) < Qabs (value b))%Q /\ (~ (value r == 0)%Q -> neg r = neg a).
Proof.
  intros m a b res res' incr q rs r Wa Wb Nb NC Hi Rm HD HF HR.
  destruct (C97_debug_quotients_are_right a b res incr q Wa Wb Nb NC Hi Rm HD) as (V & Wq & _). pose proof (frac_le_fu q Wq) as [[L0 _] _].
  pose proof (quotient_gives_guesses a b res incr q Wa Wb Nb NC Hi Rm HD HF) as G.
  destruct (C37_truncated_remainder_partial m a b res' rs r Wa Wb Nb G HR) as (E & (n & En & Lt) & Sg & NZ & Wr & _). split; [exact E|].
  split; [|split; assumption].
  rewrite (truncate_comp _ _ V), truncate_truncate by exact L0.
  assert (P : (0 <= value a * value r)%Q).
  { destruct (Qeq_dec (value r) 0) as [Z|Z]; [rewrite Z; lra|]. specialize (Sg Z). destruct (neg a) eqn:A.
    - pose proof (neg_le a Wa A) as X. pose proof (neg_le r Wr Sg) as Y. nra.
    - pose proof (pos_ge a Wa A) as X. pose proof (pos_ge r Wr Sg) as Y. nra. }
  pose proof (truncate_remainder _ _ _ n Nb En Lt P) as T. set (t := truncate (value a / value b)) in *. clearbody t. lra.
Qed.
Print Assumptions C98_division_and_remainder_agree.

Example C98_example : (let a := dec "-123456789012345678.5" in let b := dec "98765432109876543210.987654321" in regular a /\ regular b /\ product_fits a b /\ ~ (value b == 0)%Q /\ ~ negzero a /\
    exists p q, mul_to Debug a b zero = Ret (Ok tt, p) /\ sane_request p b 4 /\ div_to Debug p b zero 4 = Ret (Ok tt, q) /\ eq Debug q a = Ret true) /\
  (let a := dec "98765432109876543210.987654321" in wf a /\ ~ (value a == 0)%Q /\ sane_request a a 4 /\ exists q, div_to Debug a a zero 4 = Ret (Ok tt, q)) /\
  (let a := dec "123456789012345678901234567890.5" in let b := dec "98765432109876543210.987654321" in wf a /\ wf b /\ ~ (value b == 0)%Q /\ nothing_cut a b /\ sane_request a b 4 /\
    exists q r, div_to Debug a b zero 4 = Ret (Ok tt, q) /\ frac_digits q = 18 /\ (forall m, rem_to m a b zero = Ret (Ok tt, r)) /\ truncate (value q) = 1249999988 /\ to_string Debug r (-1) = Ret (bytes "60185185206018518521.101851852")).
Proof.
  split; [|split]; cbv zeta.
  - split; [hyps|]. split; [hyps|]. split; [hyps|]. split; [vm_compute; discriminate|]. split; [hyps|]. do 2 eexists. split; [vm_compute; reflexivity|]. split; [hyps|]. split; [vm_compute; reflexivity|]. vm_compute. reflexivity.
  - split; [hyps|]. split; [vm_compute; discriminate|]. split; [hyps|]. eexists. vm_compute. reflexivity.
  - split; [hyps|]. split; [hyps|]. split; [vm_compute; discriminate|]. split; [left; vm_compute; discriminate|]. split; [hyps|]. do 2 eexists. split; [vm_compute; reflexivity|]. split; [vm_compute; reflexivity|]. split; [intros [|]; vm_compute; reflexivity|]. split; [vm_compute; reflexivity|]. vm_compute. reflexivity.
Qed.
