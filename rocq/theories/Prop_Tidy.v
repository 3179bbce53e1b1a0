(** * Property C109: division by one resets the declared digits. *)
From Coq Require Import ZArith List Bool String Lia QArith Qabs Qround Lqa.
From Verif Require Import Rust Model_Base Model_Cmp Model_Round Model_Decimal Model_Arith Model_Serde Spec Spec_Div Spec_History Spec_Compound Spec_Tidy Lib Digits Sign AddTo AddSubQ Basics Cmp QLib RoundQ MulQ MulLaws DivBasics DivQ DivG2 DivFit ParseMain ParseThms Conv History Laws Laws4
  Prop_AddSub Prop_Print Prop_Round Prop_Div Prop_Exact Prop_Everyday Prop_Ledger Prop_Compound Tests Witness.
Import ListNotations.
Open Scope Z_scope.

Lemma power_below M : 0 < M -> exists p, 0 <= p /\ 10 ^ p <= M < 10 ^ (p + 1).
Proof.
  intros H. assert (X : forall n : nat, M < 10 ^ Z.of_nat n -> exists p, 0 <= p /\ 10 ^ p <= M < 10 ^ (p + 1)).
  { induction n as [|n IH]; intros L; [change (10 ^ Z.of_nat 0) with 1 in L; lia|]. destruct (Z.lt_ge_cases M (10 ^ Z.of_nat n)) as [G|G]; [apply IH, G|].
    exists (Z.of_nat n). split; [lia|]. split; [exact G|]. rewrite Nat2Z.inj_succ in L. exact L. }
  apply (X (Z.to_nat M)). rewrite Z2Nat.id by lia. apply Z.pow_gt_lin_r; lia.
Qed.
Lemma has_leading d : wf d -> ~ (value d == 0)%Q -> exists p, leading_digit d p.
Proof.
  intros W V. pose proof (magnitude_nonneg d W) as M0. rewrite value_zero_iff in V by exact W. destruct (power_below (magnitude d) ltac:(lia)) as (p & P0 & P1 & P2).
  exists (p + - (9 * fu d)). unfold leading_digit. rewrite (Qabs_value_pow d W). replace (p + - (9 * fu d) + 1) with (p + 1 + - (9 * fu d)) by lia. rewrite (pow10_add p), (pow10_add (p + 1)), (pow10_nonneg p), (pow10_nonneg (p + 1)) by lia.
  pose proof (pow10_pos (- (9 * fu d))) as PP. rewrite Zle_Qle in P1. rewrite Zlt_Qlt in P2. split; [apply Qmult_le_compat_r; [exact P1|lra]|apply Qmult_lt_r; [exact PP|exact P2]].
Qed.
Lemma one_leading : leading_digit one 0.
Proof. split; vm_compute; [discriminate|reflexivity]. Qed.
Lemma one_unit n : 1 <= n -> significant_units n one.
Proof. intros H. exists 1, 0. split; [|split; [lia|reflexivity]]. split; [lia|]. change base with (10 ^ 9). rewrite <- Z.pow_mul_r by lia. change 1 with (10 ^ 0) at 1. apply Z.pow_lt_mono_r; lia. Qed.

(** ** C109 *)
Theorem C109_division_by_one : forall m a res, regular a -> ~ (value a == 0)%Q -> frac_digits a <= 36 -> iu a + fu a <= 8 ->
  exists d, div_to m a one res 0 = Ret (Ok tt, d) /\ regular d /\ ~ negzero d /\ (value d == value a)%Q /\ frac_digits d = 9 * fu a /\
    (Qabs (value a) < pow10 (9 * iu d))%Q /\ (0 < iu d -> (pow10 (9 * (iu d - 1)) <= Qabs (value a))%Q) /\ iu d <= iu a.
Proof.
  intros m a res (W & C & T & N) V F36 U8. pose proof (wf_counts a W) as CA.
  pose proof regular_one as (W1 & _). assert (N1 : ~ (value one == 0)%Q) by (vm_compute; discriminate).
  assert (Rm : div_room a one 0) by (apply C34_room; [exact W|exact W1|exact F36|vm_compute; discriminate|lia]). pose proof (room_sane _ _ _ Rm) as Sn.
  assert (DV : (value a / value one == value a)%Q) by (change (value one) with (1 # 1)%Q; field).
  destruct (C35_division_returns_partial m a one res 0 W W1 N1 (or_introl (conj (one_unit 2 ltac:(lia)) (fun _ => one_unit 1 ltac:(lia)))) U8 ltac:(lia) Rm) as ([rs d] & HD).
  assert (OK : rs = Ok tt).
  { destruct rs as [[]|e]; [reflexivity|]. exfalso. refine (proj1 (C34_overflow_iff m a one res 0 W W1 N1 ltac:(lia) Rm) _ e d HD). rewrite DV. eapply Qlt_le_trans; [apply (value_bound a W)|]. apply pow10_le. lia. }
  subst rs. destruct (has_leading a W V) as (p & Lp).
  destruct (C36_regular_quotients_partial m a one res 0 d p 0 W W1 N1 (or_introl (one_unit 2 ltac:(lia))) ltac:(lia) Sn Lp one_leading) as [R NZ]; [rewrite Z.mod_0_l by lia; apply Z.mod_pos_bound; lia|exact HD|].
  destruct (C34_truncated_quotient_partial m a one res 0 d W W1 N1 (or_introl (one_unit 2 ltac:(lia))) ltac:(lia) Sn HD) as (VD & _).
  destruct (C34_quotient_units_partial m a one res 0 d W W1 V N1 (or_introl (one_unit 2 ltac:(lia))) ltac:(lia) Sn HD) as (U1 & U2 & U3). rewrite DV in U1. setoid_rewrite DV in U2.
  assert (IL : iu d <= iu a) by (apply (power_units (Qabs (value a)) (iu d) (iu a)); [apply value_bound, W|lia|exact U2]).
  assert (F4 : fu a <= 4) by (unfold fu, units_for; apply Z.lt_succ_r, Z.div_lt_upper_bound; lia).
  assert (FD : frac_digits d = 9 * fu a).
  { rewrite U3. change (fu one) with 0. change (frac_digits one) with 0. rewrite !Z.add_0_r. change (units_for (frac_digits a)) with (fu a). pose proof (wf_counts d (proj1 R)). lia. }
  exists d. split; [exact HD|]. split; [exact R|]. split; [exact NZ|]. split; [|split; [exact FD|split; [exact U1|split; [exact U2|exact IL]]]].
  rewrite VD, (truncate_at_comp _ _ (frac_digits d) DV), FD. apply (truncate_at_exact (value a) (smag a) (9 * fu a)); [lia|apply value_smag, W].
Qed.
Print Assumptions C109_division_by_one.

Definition fit (d : fd) : Prop := regular d /\ iu d <= 4 /\ fu d <= 1.
Lemma fit_zero : fit zero.
Proof. split; [apply regular_zero|]. vm_compute. split; discriminate. Qed.
Lemma one_tidy_period m rate f d0 q : regular rate -> iu rate <= 2 -> fu rate <= 1 -> (m = Debug -> 1 <= iu rate) -> 0 <= f <= 9 ->
  fit d0 -> (value d0 == q)%Q -> (Qabs (round_at (q * value rate) f) < pow10 36)%Q ->
  exists p r t, mul_to m rate d0 zero = Ret (Ok tt, p) /\ round_to m p zero f = Ret r /\ div_to m r one zero 0 = Ret (Ok tt, t) /\
    fit t /\ (value t == round_at (q * value rate) f)%Q.
Proof.
  intros RR IR FR DB Hf (R0 & I0 & F0) V0 B.
  pose proof (wf_counts _ (proj1 R0)) as C0. pose proof (wf_counts _ (proj1 RR)) as CR.
  assert (PF : product_fits rate d0 /\ int_digits rate + int_digits d0 <= 54 /\ frac_digits rate + frac_digits d0 <= 18 /\ product_lost_units rate d0 <= 1 /\ (product_lost_units rate d0 = 1 -> 1 <= fu rate)).
  { pose proof (units_up (int_digits d0)). pose proof (units_up (int_digits rate)). pose proof (units_up (frac_digits d0)). pose proof (units_up (frac_digits rate)).
    unfold product_fits, product_lost_units, product_frac_units, product_int_units, iu, fu in *.
    set (y := int_digits d0) in *. set (x := int_digits rate) in *. set (v := frac_digits d0) in *. set (u := frac_digits rate) in *. clearbody x y u v.
    assert (A : units_for (x + y) <= units_for x + units_for y) by (clear; unfold units_for; Z.to_euclidean_division_equations; lia).
    assert (B' : units_for u + units_for v - 1 <= units_for (u + v) <= units_for u + units_for v) by (clear; unfold units_for; Z.to_euclidean_division_equations; lia).
    assert (C : units_for (u + v) = units_for u + units_for v - 1 -> 1 <= units_for u) by (clear - C0 CR; unfold units_for; Z.to_euclidean_division_equations; lia).
    clear DB. lia. }
  destruct PF as (PF & PI & PR & LO & L1).
  assert (MU : exists p, mul_to m rate d0 zero = Ret (Ok tt, p) /\ iu p <= 6).
  { destruct (C73_every_product m rate d0 zero RR R0) as [(_ & E)|(Na & Nb & [(N & _)|[(_ & L & _)|(_ & _ & d & E & _ & _ & _ & ID & _)]])].
    - exists zero. split; [exact E|]. vm_compute. discriminate.
    - exfalso. apply N. pose proof (some_units _ (proj1 RR) Na) as SU. split; [lia|]. split; [lia|]. right.
      destruct (Z.lt_ge_cases (product_lost_units rate d0) (iu rate + fu rate)) as [X|X]; [left; exact X|right].
      destruct m; [specialize (DB eq_refl); lia|split; [reflexivity|lia]].
    - exfalso. lia.
    - exists d. split; [exact E|]. unfold iu. rewrite ID. apply units_one. unfold product_int_units. pose proof (units_one (int_digits rate + int_digits d0) 6 ltac:(lia)) as U6. assert (U0 : 0 <= units_for (int_digits rate + int_digits d0)) by (clear - C0 CR; unfold units_for; Z.to_euclidean_division_equations; lia). clear - U6 U0. lia. }
  destruct MU as (p & EP & IP).
  set (st := two_vars rate d0). assert (RS : forall i, regular (st i)) by (intros [|[|i]]; cbn; auto using regular_zero).
  assert (PP : perform m st (Mul 0 1 2) = Ret (Ok tt, p)) by exact EP.
  pose proof (exact_step m st (Mul 0 1 2) (Ok tt) p RS PF PP) as VP. cbn [meaning] in VP. change (value (st 0%nat)) with (value rate) in VP. change (value (st 1%nat)) with (value d0) in VP.
  pose proof (careful_step m st (Mul 0 1 2) (Ok tt) p RS (exact_careful st (Mul 0 1 2) PF) PP) as (Wp & Cp & Tp & Np).
  assert (VQ : (round_at (value p) f == round_at (q * value rate) f)%Q) by (apply round_at_comp; rewrite VP, V0; ring).
  pose proof (units_one f 1 ltac:(lia)) as UF.
  destruct (proj2 (C38_round_to_returns_iff_room m p zero f Wp ltac:(lia) (or_intror Np))) as (r & ER).
  { split; [lia|]. rewrite VQ. eapply Qlt_le_trans; [exact B|]. apply pow10_le. lia. }
  destruct (round_to_spec_ret m p zero f r Wp ltac:(lia) (or_intror Np) ER) as (Wr & Vr & Fr & _ & Nr & CC & TT).
  assert (Rr : regular r) by (rg; [exact Wr|exact (CC Cp)|exact (TT Tp)|exact Nr]).
  assert (VR : (value r == round_at (q * value rate) f)%Q) by (rewrite Vr; exact VQ).
  assert (Ir : iu r <= 6) by (apply (round_to_shape m p zero f r 6); [exact Wp|lia|exact ER|exact IP|]; rewrite VR; eapply Qlt_trans; [exact B|vm_compute; reflexivity]).
  assert (FRu : fu r <= 1) by (unfold fu; rewrite Fr; exact UF).
  exists p, r. destruct (Qeq_dec (value r) 0) as [Zr|Zr].
  - exists zero. split; [exact EP|]. split; [exact ER|]. split; [apply DivQ.div_to_zero; [exact Wr|apply regular_one|exact Zr|vm_compute; discriminate]|]. split; [apply fit_zero|]. rewrite <- VR, Zr. vm_compute. reflexivity.
  - destruct (C109_division_by_one m r zero Rr Zr ltac:(lia) ltac:(lia)) as (t & ET & RT & _ & VT & FT & U1 & U2 & _).
    exists t. split; [exact EP|]. split; [exact ER|]. split; [exact ET|]. split; [|rewrite VT; exact VR]. split; [exact RT|]. split.
    + apply (power_units (Qabs (value r)) (iu t) 4); [rewrite VR; exact B|lia|exact U2].
    + unfold fu. rewrite FT. apply units_one. pose proof (wf_counts r Wr). lia.
Qed.

Theorem C109_compounding_in_place : forall m rate f k b, regular rate -> iu rate <= 2 -> fu rate <= 1 -> (m = Debug -> 1 <= iu rate) -> 0 <= f <= 9 ->
  regular b -> iu b <= 4 -> fu b <= 1 ->
  (forall j, (j <= k)%nat -> (Qabs (growth (value rate) f j (value b)) < pow10 36)%Q) ->
  exists r, compound_tidy m rate f k b = Ret (Ok r) /\ regular r /\ (value r == growth (value rate) f k (value b))%Q /\ iu r <= 4 /\ fu r <= 1.
Proof.
  intros m rate f k. induction k as [|k IH]; intros b RR IR FR DB Hf RB IB FB B.
  - exists b. split; [reflexivity|]. split; [exact RB|]. split; [reflexivity|]. split; assumption.
  - destruct (one_tidy_period m rate f b (value b) RR IR FR DB Hf (conj RB (conj IB FB)) ltac:(reflexivity) (B 1%nat ltac:(lia))) as (p & r & t & EP & ER & ET & (RT & IT & FT) & VT).
    assert (GC : forall j x y, (x == y)%Q -> (growth (value rate) f j x == growth (value rate) f j y)%Q).
    { clear. induction j as [|j IH]; intros x y E; [exact E|]. cbn [growth]. apply IH. apply round_at_comp. rewrite E. reflexivity. }
    destruct (IH t RR IR FR DB Hf RT IT FT) as (r' & EC & R' & V' & I' & F').
    + intros j Hj. rewrite (GC j _ _ VT). exact (B (S j) ltac:(lia)).
    + exists r'. split; [cbn [compound_tidy]; rewrite EP, bind_Ret; cbv beta iota; rewrite ER, bind_Ret; cbv beta iota; rewrite ET, bind_Ret; cbv beta iota; exact EC|].
      split; [exact R'|]. split; [rewrite V'; cbn [growth]; apply GC; exact VT|]. split; assumption.
Qed.
Print Assumptions C109_compounding_in_place.

(** The compounding of [C106_in_place_panics], forty periods long; and what division by one resets. *)
Example C109_example : let rate := dec "1.0375" in let b := dec "100" in
  regular rate /\ iu rate = 1 /\ fu rate = 1 /\ regular b /\ iu b = 1 /\ fu b = 0 /\
  (forall j, (j <= 40)%nat -> (Qabs (growth (value rate) 2 j (value b)) < pow10 36)%Q) /\
  (forall m, exists r, compound_tidy m rate 2 40 b = Ret (Ok r) /\ to_string m r 2 = Ret (bytes "436.01") /\ int_digits r = 3) /\
  (forall m, exists p d, mul_to m (dec "1.5") one zero = Ret (Ok tt, p) /\ int_digits p = 9 /\ div_to m p one zero 0 = Ret (Ok tt, d) /\ int_digits d = 1).
Proof.
  cbv zeta. split; [rg; hyps|]. split; [reflexivity|]. split; [reflexivity|]. split; [rg; hyps|]. split; [reflexivity|]. split; [reflexivity|]. split; [|split].
  - intros j Hj. do 41 (destruct j as [|j]; [vm_compute; reflexivity|]). lia.
  - intros [|]; eexists; (split; [vm_compute; reflexivity|split; vm_compute; reflexivity]).
  - intros [|]; do 2 eexists; (split; [vm_compute; reflexivity|]; split; [vm_compute; reflexivity|]; split; vm_compute; reflexivity).
Qed.
