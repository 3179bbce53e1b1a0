(** * Properties: laws of division (C57, C58, C59, C61). *)
From Coq Require Import ZArith List Bool String Lia QArith Qabs Qround Lqa.
From Verif Require Import Rust Model_Base Model_Cmp Model_Decimal Model_Arith Model_Serde Spec Spec_Div Lib Sign AddSubQ Basics Cmp QLib RoundQ MulQ DivBasics DivQ DivG2 DivFit Conv History Laws Prop_Compare Prop_AddSub Prop_Conv Prop_Mul Prop_Div Prop_Rem Tests Witness.
Import ListNotations.
Open Scope Z_scope.

(** C57: division finds exact quotients. It is false: a product divided by one of its
    factors is not the other one, though the product is exact and the quotient has 19 digits: a debug build
    panics, a release build returns something that is not a decimal. *)
Theorem C57_exact_quotients_refuted : exists p d, let a := dec "1.999999999999999999" in let b := dec "1.000000001000000001" in
  regular a /\ regular b /\ product_fits a b /\ (forall m, mul_to m a b zero = Ret (Ok tt, p)) /\ (value p == value a * value b)%Q /\
  div_to Debug p b zero 4 = Panic PAssert /\ div_to Release p b zero 4 = Ret (Ok tt, d) /\ ~ wf d /\ ~ (value d == value a)%Q.
Proof.
  do 2 eexists. cbv zeta. split; [hyps|]. split; [hyps|]. split; [hyps|]. split; [intros [|]; vm_compute; reflexivity|]. split; [vm_compute; reflexivity|].
  split; [vm_compute; reflexivity|]. split; [vm_compute; reflexivity|]. split; [|vm_compute; discriminate].
  intros W. apply wf_units in W. repeat (inversion W as [|? ? W1 W2]; subst; clear W; rename W2 into W; destruct W1 as [_ W1]; vm_compute in W1; try discriminate W1; clear W1).
Qed.
Print Assumptions C57_exact_quotients_refuted.
(** The part that holds: for the operands of C34, a quotient that has at most the fractional digits of the result is exact. *)
Theorem C57_exact_quotients_partial : forall m a b res incr d z k, wf a -> wf b -> ~ (value b == 0)%Q ->
  significant_units 2 b \/ tame (asked_units a b incr) a b -> 0 <= incr -> sane_request a b incr ->
  div_to m a b res incr = Ret (Ok tt, d) ->
  (value a / value b == inject_Z z * pow10 (- k))%Q -> k <= frac_digits d -> (value d == value a / value b)%Q.
Proof.
  intros m a b res incr d z k Ha Hb Nb S Hi Rm H E K.
  destruct (C34_truncated_quotient_partial m a b res incr d Ha Hb Nb S Hi Rm H) as (V & _). rewrite V. exact (truncate_at_exact _ z k _ K E).
Qed.
Print Assumptions C57_exact_quotients_partial.
Theorem C57_division_undoes_multiplication_partial : forall m a b res res' incr p q, regular a -> regular b -> product_fits a b ->
  mul_to m a b res = Ret (Ok tt, p) -> ~ (value b == 0)%Q -> significant_units 2 b \/ tame (asked_units p b incr) p b -> 0 <= incr -> sane_request p b incr ->
  div_to m p b res' incr = Ret (Ok tt, q) -> (value q == value a)%Q /\ (~ negzero a -> eq m q a = Ret true).
Proof.
  intros m a b res res' incr p q Ra Rb F HM Nb S Hi Rm HD.
  destruct (C28_multiplication_is_exact m a b res _ p Ra Rb F HM) as (_ & V & Rp & FD).
  destruct Ra as (Wa & Ca & Ta & Na). destruct Rb as (Wb & _). pose proof Rp as (Wp & _).
  destruct (C34_truncated_quotient_partial m p b res' incr q Wp Wb Nb S Hi Rm HD) as (_ & Wq & Cq & _ & NZ & _).
  assert (E : (value p / value b == value a)%Q) by (rewrite V; field; exact Nb).
  assert (X : (value q == value a)%Q).
  { destruct (Qeq_dec (value a) 0) as [Z|Z].
    - assert (Vp : (value p == 0)%Q) by (rewrite V, Z; ring). rewrite (DivQ.div_to_zero m p b res' incr Wp Wb Vp Nb) in HD. injection HD as <-. rewrite Z. reflexivity.
    - assert (Vp : ~ (value p == 0)%Q) by (rewrite V; intros X; apply Qmult_integral in X; tauto).
      destruct (C34_quotient_units_partial m p b res' incr q Wp Wb Vp Nb S Hi Rm HD) as (U1 & U2 & U3).
      rewrite <- E. destruct (nohidden_multiple a (frac_digits a) Wa Na (Z.le_refl _)) as (z & Hz).
      apply (C57_exact_quotients_partial m p b res' incr q z (frac_digits a) Wp Wb Nb S Hi Rm HD); [rewrite E; exact Hz|].
      assert (IQ : iu q <= iu a).
      { apply (power_units (Qabs (value p / value b)) (iu q) (iu a)); [rewrite E; apply value_bound, Wa|apply (wf_counts a Wa)|exact U2]. }
      rewrite U3. specialize (FD Z Nb). destruct F as [F1 F2]. pose proof (frac_le_fu a Wa) as [[L0 L1] _]. pose proof (frac_le_fu b Wb) as [[L2 _] _].
      assert (FA : fu a <= 4) by (unfold fu; etransitivity; [apply (units_mono (frac_digits a) (frac_digits a + frac_digits b)); lia|exact F1]).
      assert (FP : fu a <= fu p) by (unfold fu; apply units_mono; lia).
      pose proof (wf_counts a Wa) as CA. pose proof (wf_counts b Wb) as CB. clear - IQ FA FP CA CB L1. lia. }
  split; [exact X|]. intros NA. apply C15_equal_numbers_compare_equal_partial; assumption.
Qed.
Print Assumptions C57_division_undoes_multiplication_partial.
(** Dividing by one gives the number back, in both builds. *)
Theorem C57_division_by_one : forall m a u res incr, regular a -> regular u -> (value u == 1)%Q -> frac_digits a <= 36 -> frac_digits u <= 36 -> iu a + fu a <= 8 -> 0 <= incr <= 47 ->
  exists q, div_to m a u res incr = Ret (Ok tt, q) /\ (value q == value a)%Q /\ (~ negzero a -> eq m q a = Ret true).
Proof.
  intros m a u res incr (Wa & Ca & Ta & Na) (Wu & _) V Fa Fu' L8 Hi.
  assert (Nu : ~ (value u == 0)%Q) by (rewrite V; discriminate).
  assert (S1 : significant_units 1 u).
  { exists 1, (fu u). pose proof (wf_counts u Wu) as CU. split; [split; [lia|unfold base; lia]|]. split; [lia|].
    pose proof (Qabs_value_pow u Wu) as Q. rewrite V in Q. change (Qabs 1) with 1%Q in Q. rewrite Z.mul_1_l.
    assert (Y : (inject_Z (magnitude u) == inject_Z (base ^ fu u))%Q).
    { setoid_replace (inject_Z (magnitude u)) with (inject_Z (magnitude u) * pow10 (- (9 * fu u)) * pow10 (9 * fu u))%Q by (rewrite <- Qmult_assoc, pow10_inv; ring).
      rewrite <- Q, Qmult_1_l, pow10_nonneg by lia. replace (10 ^ (9 * fu u)) with (base ^ fu u) by (unfold base; change 1000000000 with (10 ^ 9); rewrite <- Z.pow_mul_r by lia; f_equal; lia). reflexivity. }
    clear - Y. unfold Qeq in Y. cbn in Y. lia. }
  assert (S2 : significant_units 2 u).
  { destruct S1 as (x & k & Hx & Hk & E). exists x, k. split; [|auto]. change (base ^ 1) with base in Hx. change (base ^ 2) with (base * base). unfold base in *. lia. }
  pose proof (C34_room a u incr Wa Wu Fa Fu' Hi) as Rm.
  destruct (C35_division_returns_partial m a u res incr Wa Wu Nu (or_introl (conj S2 (fun _ => S1))) L8 ltac:(lia) Rm) as ([rs q] & H).
  assert (E : (value a / value u == value a)%Q) by (rewrite V; field).
  assert (OK : rs = Ok tt).
  { destruct rs as [[]|e]; [reflexivity|]. exfalso. refine (proj1 (C34_overflow_iff m a u res incr Wa Wu Nu ltac:(lia) Rm) _ e q H).
    rewrite E. eapply Qlt_le_trans; [apply value_bound, Wa|]. apply pow10_le. pose proof (wf_counts a Wa). lia. }
  subst rs. exists q. split; [exact H|].
  destruct (C34_truncated_quotient_partial m a u res incr q Wa Wu Nu (or_introl S2) ltac:(lia) (room_sane _ _ _ Rm) H) as (_ & Wq & Cq & _ & NZ & _).
  assert (X : (value q == value a)%Q).
  { destruct (Qeq_dec (value a) 0) as [Z|Z].
    - rewrite (DivQ.div_to_zero m a u res incr Wa Wu Z Nu) in H. injection H as <-. rewrite Z. reflexivity.
    - destruct (C34_quotient_units_partial m a u res incr q Wa Wu Z Nu (or_introl S2) ltac:(lia) (room_sane _ _ _ Rm) H) as (U1 & U2 & U3).
      destruct (nohidden_multiple a (frac_digits a) Wa Na (Z.le_refl _)) as (z & Hz). transitivity (value a / value u)%Q; [|exact E].
      apply (C57_exact_quotients_partial m a u res incr q z (frac_digits a) Wa Wu Nu (or_introl S2) ltac:(lia) (room_sane _ _ _ Rm) H); [rewrite E; exact Hz|].
      assert (IQ : iu q <= iu a).
      { apply (power_units (Qabs (value a / value u)) (iu q) (iu a)); [rewrite E; apply value_bound, Wa|apply (wf_counts a Wa)|exact U2]. }
      assert (FA : fu a <= 4) by (unfold fu; etransitivity; [apply (units_mono (frac_digits a) 36); lia|unfold units_for; cbn; lia]).
      rewrite U3. pose proof (frac_le_fu a Wa) as [[L0 L1] _]. pose proof (wf_counts a Wa) as CA. pose proof (wf_counts u Wu) as CB. clear - IQ FA CA CB L1. lia. }
  split; [exact X|]. intros NA. apply C15_equal_numbers_compare_equal_partial; assumption.
Qed.
Print Assumptions C57_division_by_one.
(** A number divided by itself is one. *)
Theorem C57_division_by_itself_partial : forall m a res incr q, wf a -> ~ (value a == 0)%Q -> significant_units 2 a \/ tame (asked_units a a incr) a a ->
  0 <= incr -> sane_request a a incr -> div_to m a a res incr = Ret (Ok tt, q) -> (value q == 1)%Q /\ eq m q one = Ret true.
Proof.
  intros m a res incr q Wa Nz S Hi Rm H.
  destruct (C34_truncated_quotient_partial m a a res incr q Wa Wa Nz S Hi Rm H) as (V & Wq & Cq & _ & NZ & _).
  assert (E : (value a / value a == 1)%Q) by (field; exact Nz). pose proof (frac_le_fu q Wq) as [[L0 L1] _].
  assert (X : (value q == 1)%Q).
  { rewrite V, <- E. apply (truncate_at_exact _ 1 0); [exact L0|]. rewrite E. reflexivity. }
  split; [exact X|]. apply C15_equal_numbers_compare_equal_partial; try assumption; [hyps|hyps].
Qed.
Print Assumptions C57_division_by_itself_partial.
Example C57_example : let a := dec "-415926535.8979" in let b := dec "2.718281828" in let u := dec "1.000" in
  regular a /\ regular b /\ regular u /\ product_fits a b /\ ~ (value b == 0)%Q /\ significant_units 2 b /\ significant_units 2 a /\ ~ negzero a /\
  (value u == 1)%Q /\ iu a + fu a = 2 /\ sane_request a a 4 /\ (exists q, div_to Release a a zero 4 = Ret (Ok tt, q)) /\
  exists p q, mul_to Release a b zero = Ret (Ok tt, p) /\ sane_request p b 4 /\ div_to Release p b zero 4 = Ret (Ok tt, q) /\
  to_string Release q (-1) = Ret (bytes "-415926535.897900000000000000000000000").
Proof.
  cbv zeta. split; [hyps|]. split; [hyps|]. split; [hyps|]. split; [hyps|]. split; [vm_compute; discriminate|]. split; [sigu 2718281828 0|].
  split; [sigu 415926535897900000 0|]. split; [hyps|]. split; [vm_compute; reflexivity|]. split; [vm_compute; reflexivity|]. split; [hyps|]. split; [eexists; vm_compute; reflexivity|].
  do 2 eexists. split; [vm_compute; reflexivity|]. split; [hyps|]. split; [vm_compute; reflexivity|]. vm_compute. reflexivity.
Qed.

(** C58: quotient and remainder fit together: [a] is the integral part of the quotient times [b], plus the remainder. *)
Theorem C58_division_and_remainder_agree_partial : forall m a b res res' incr q rs r, wf a -> wf b -> ~ (value b == 0)%Q ->
  significant_units 2 b \/ tame (asked_units a b incr) a b /\ tame_integral a b -> 0 <= incr -> sane_request a b incr ->
  div_to m a b res incr = Ret (Ok tt, q) -> rem_to m a b res' = Ret (rs, r) ->
  rs = Ok tt /\ (value a == value b * inject_Z (truncate (value q)) + value r)%Q.
Proof.
  intros m a b res res' incr q rs r Wa Wb Nb S Hi Rm HD HR.
  assert (S' : significant_units 2 b \/ tame (asked_units a b incr) a b) by (destruct S as [S|[S _]]; auto).
  destruct (C34_truncated_quotient_partial m a b res incr q Wa Wb Nb S' Hi Rm HD) as (V & Wq & _). pose proof (frac_le_fu q Wq) as [[L0 _] _].
  assert (G : guesses_right (scaled a) (scaled b)).
  { destruct S as [S|S]; [apply C37_two_units; assumption|]. apply C37_tame_quotients; try assumption. apply S. }
  destruct (C37_truncated_remainder_partial m a b res' rs r Wa Wb Nb G HR) as (E & (n & En & Lt) & Sg & NZ & Wr & _). split; [exact E|].
  rewrite (truncate_comp _ _ V), truncate_truncate by exact L0.
  assert (P : (0 <= value a * value r)%Q).
  { destruct (Qeq_dec (value r) 0) as [Z|Z]; [rewrite Z; lra|]. specialize (Sg Z). destruct (neg a) eqn:A.
    - pose proof (neg_le a Wa A) as X. pose proof (neg_le r Wr Sg) as Y. nra.
    - pose proof (pos_ge a Wa A) as X. pose proof (pos_ge r Wr Sg) as Y. nra. }
  pose proof (truncate_remainder _ _ _ n Nb En Lt P) as T. set (t := truncate (value a / value b)) in *. clearbody t. lra.
Qed.
Print Assumptions C58_division_and_remainder_agree_partial.
(** It fails with the quotient or the remainder: 2 % 1.000000000000000001 is 0.000000000000000002. *)
Theorem C58_division_and_remainder_agree_refuted : exists q r, let a := dec "2" in let b := dec "1.000000000000000001" in regular a /\ regular b /\
  div_to Release a b zero 4 = Ret (Ok tt, q) /\ (forall m, rem_to m a b zero = Ret (Ok tt, r)) /\ 
  ~ (value a == value b * inject_Z (truncate (value q)) + value r)%Q.
Proof.
  do 2 eexists. cbv zeta. split; [hyps|]. split; [hyps|]. split; [vm_compute; reflexivity|]. split; [intros [|]; vm_compute; reflexivity|]. vm_compute. discriminate.
Qed.
Print Assumptions C58_division_and_remainder_agree_refuted.
Example C58_example : let a := dec "-98765432109876543210.125" in let b := dec "-1234.5" in wf a /\ wf b /\ ~ (value b == 0)%Q /\ significant_units 2 b /\ sane_request a b 4 /\ iu a + fu b = 4 /\
  exists q r, div_to Release a b zero 4 = Ret (Ok tt, q) /\ rem_to Release a b zero = Ret (Ok tt, r) /\ truncate (value q) = 80004400251013805 /\ to_string Release r (-1) = Ret (bytes "-937.625").
Proof.
  cbv zeta. split; [hyps|]. split; [hyps|]. split; [vm_compute; discriminate|]. split; [sigu 1234500000000 0|]. split; [hyps|]. split; [vm_compute; reflexivity|].
  do 2 eexists. split; [vm_compute; reflexivity|]. split; [vm_compute; reflexivity|]. split; [vm_compute; reflexivity|]. vm_compute. reflexivity.
Qed.

(** C59: the average of a list - the running total divided by the count - is the truncated mean, and lies between the extremes. *)
Lemma count_divisor : forall m n c, 0 < n < 10 ^ 18 -> from_u64 m n = Ret c -> regular c /\ (value c == inject_Z n)%Q /\ significant_units 2 c /\ fu c = 0.
Proof.
  intros m n c Hn H. destruct (C18_from_u64_is_exact m n ltac:(lia)) as (d & E & (W & C & T & N & Z & V & F & _) & _). rewrite E in H. injection H as ->.
  assert (F0 : fu c = 0) by (unfold fu; rewrite F; reflexivity). split; [repeat split; first [exact C|exact T|exact N|apply W]|]. split; [exact V|]. split; [|exact F0].
  exists n, 0. split; [exact Hn|]. split; [lia|]. rewrite Z.pow_0_r, Z.mul_1_r. pose proof (Qabs_value_pow c W) as Q. rewrite V, F0 in Q. change (pow10 (- (9 * 0))) with 1%Q in Q.
  rewrite Qmult_1_r in Q. rewrite Qabs_pos in Q by (change 0%Q with (inject_Z 0); rewrite <- Zle_Qle; lia). clear - Q. unfold Qeq in Q. cbn in Q. lia.
Qed.
Theorem C59_averages_are_truncated_means : forall m l s c res incr q, Forall wf l -> l <> [] -> Z.of_nat (List.length l) < 10 ^ 18 ->
  total m zero l = Ret s -> from_u64 m (Z.of_nat (List.length l)) = Ret c -> 0 <= incr <= 166 -> div_to m s c res incr = Ret (Ok tt, q) ->
  (value q == truncate_at (fold_right (fun x q => value x + q) 0 l / inject_Z (Z.of_nat (List.length l))) (frac_digits q))%Q.
Proof.
  intros m l s c res incr q Wl Ne Len HT HC Hi HD. assert (Ln : 0 < Z.of_nat (List.length l)) by (destruct l; [congruence|cbn; lia]).
  destruct (C51_running_totals_are_exact m l zero s ltac:(hyps) Wl HT) as (Ws & Vs). destruct (count_divisor m _ c (conj Ln Len) HC) as ((Wc & _) & Vc & S & F0).
  assert (Nc : ~ (value c == 0)%Q) by (rewrite Vc; intros X; unfold Qeq in X; cbn in X; clear - X Ln; lia).
  assert (Rm : sane_request s c incr).
  { unfold sane_request. pose proof (frac_le_fu s Ws) as [[? ?] _]. pose proof (wf_counts s Ws). pose proof (frac_le_fu c Wc) as [[? ?] _]. clear - H H0 H1 H2 H3 F0 Hi. lia. }
  destruct (C34_truncated_quotient_partial m s c res incr q Ws Wc Nc (or_introl S) ltac:(lia) Rm HD) as (V & _). rewrite V. apply truncate_at_comp. rewrite Vs, Vc. change (value zero) with (0 # 1)%Q. 
  apply Qmult_comp; [ring|reflexivity].
Qed.
Print Assumptions C59_averages_are_truncated_means.
Lemma sum_bounds lo hi l : Forall (fun x => lo <= value x /\ value x <= hi)%Q l ->
  (lo * inject_Z (Z.of_nat (List.length l)) <= fold_right (fun x q => value x + q) 0 l)%Q /\ (fold_right (fun x q => value x + q) 0 l <= hi * inject_Z (Z.of_nat (List.length l)))%Q.
Proof.
  induction 1 as [|x l [H1 H2] _ [I1 I2]]; [cbn; split; ring_simplify; apply Qle_refl|].
  cbn [List.length fold_right]. rewrite Nat2Z.inj_succ. unfold Z.succ. rewrite inject_Z_plus. change (inject_Z 1) with 1%Q.
  set (n := inject_Z (Z.of_nat (List.length l))) in *. clearbody n. split; lra.
Qed.
Theorem C59_averages_lie_between : forall m l s c res incr q lo hi, Forall wf l -> l <> [] -> Z.of_nat (List.length l) < 10 ^ 18 ->
  total m zero l = Ret s -> from_u64 m (Z.of_nat (List.length l)) = Ret c -> 0 <= incr <= 166 -> div_to m s c res incr = Ret (Ok tt, q) ->
  wf lo -> wf hi -> nohidden lo -> nohidden hi -> frac_digits lo <= frac_digits q -> frac_digits hi <= frac_digits q ->
  Forall (fun x => value lo <= value x /\ value x <= value hi)%Q l -> (value lo <= value q /\ value q <= value hi)%Q.
Proof.
  intros m l s c res incr q lo hi Wl Ne Len HT HC Hi HD Wlo Whi Nlo Nhi Flo Fhi B.
  pose proof (C59_averages_are_truncated_means m l s c res incr q Wl Ne Len HT HC Hi HD) as V. destruct (sum_bounds _ _ l B) as [B1 B2].
  assert (Ln : (0 < inject_Z (Z.of_nat (List.length l)))%Q) by (change 0%Q with (inject_Z 0); rewrite <- Zlt_Qlt; destruct l; [congruence|cbn; lia]).
  destruct (nohidden_multiple lo _ Wlo Nlo Flo) as (z1 & E1). destruct (nohidden_multiple hi _ Whi Nhi Fhi) as (z2 & E2).
  rewrite V. split.
  - rewrite <- (truncate_at_multiple (value lo) _ z1 E1) at 1. apply truncate_at_mono. apply Qle_shift_div_l; assumption.
  - rewrite <- (truncate_at_multiple (value hi) _ z2 E2). apply truncate_at_mono. apply Qle_shift_div_r; assumption.
Qed.
Print Assumptions C59_averages_lie_between.
Example C59_example : let l := [dec "1.10"; dec "2.25"; dec "-0.7"; dec "3.30"; dec "0.05"; dec "2.00"; dec "0.01"] in
  Forall wf l /\ wf (dec "-0.7") /\ nohidden (dec "-0.7") /\ nohidden (dec "3.30") /\
  exists s c q, total Debug zero l = Ret s /\ from_u64 Debug 7 = Ret c /\ div_to Debug s c zero 4 = Ret (Ok tt, q) /\ to_string Debug q (-1) = Ret (bytes "1.144285714").
Proof.
  cbv zeta. split; [repeat constructor; hyps|]. split; [hyps|]. split; [hyps|]. split; [hyps|].
  do 3 eexists. split; [vm_compute; reflexivity|]. split; [vm_compute; reflexivity|]. split; [vm_compute; reflexivity|]. vm_compute. reflexivity.
Qed.

(** C61: division respects the order. It is false: the quotient of the larger dividend is printed with fewer digits. *)
Theorem C61_division_is_monotone_refuted : exists x y, let a := dec "1.9999999999999999999999" in let a' := dec "2" in let b := dec "3" in
  (value a < value a')%Q /\ (forall m, div_to m a b zero 4 = Ret (Ok tt, x)) /\ (forall m, div_to m a' b zero 4 = Ret (Ok tt, y)) /\ (forall m, cmp m x y = Ret Gt).
Proof.
  do 2 eexists. cbv zeta. split; [vm_compute; reflexivity|]. split; [intros [|]; vm_compute; reflexivity|]. split; [intros [|]; vm_compute; reflexivity|]. intros [|]; vm_compute; reflexivity.
Qed.
Print Assumptions C61_division_is_monotone_refuted.
(** It holds between quotients with the same number of fractional digits; in general the order is lost by less than the last place of the shorter one. *)
Theorem C61_division_is_monotone_partial : forall m a a' b res res' incr incr' x y, wf a -> wf a' -> wf b -> (0 < value b)%Q ->
  significant_units 2 b \/ tame (asked_units a b incr) a b -> significant_units 2 b \/ tame (asked_units a' b incr') a' b -> 
  0 <= incr -> 0 <= incr' -> sane_request a b incr -> sane_request a' b incr' ->
  div_to m a b res incr = Ret (Ok tt, x) -> div_to m a' b res' incr' = Ret (Ok tt, y) -> (value a <= value a')%Q -> frac_digits x = frac_digits y ->
  (value x <= value y)%Q /\ cmp m x y <> Ret Gt.
Proof.
  intros m a a' b res res' incr incr' x y Wa Wa' Wb Pb S S' Hi Hi' Rm Rm' H H' L F. assert (Nb : ~ (value b == 0)%Q) by (intros X; rewrite X in Pb; discriminate).
  destruct (C34_truncated_quotient_partial m a b res incr x Wa Wb Nb S Hi Rm H) as (V & Wx & Cx & _ & Zx & _).
  destruct (C34_truncated_quotient_partial m a' b res' incr' y Wa' Wb Nb S' Hi' Rm' H') as (V' & Wy & Cy & _ & Zy & _).
  assert (X : (value x <= value y)%Q).
  { rewrite V, V', F. apply truncate_at_mono. apply Qmult_le_compat_r; [exact L|]. apply Qlt_le_weak, Qinv_lt_0_compat, Pb. }
  split; [exact X|]. rewrite cmp_numeric_nz by assumption. intros G. injection G as G. apply Qgt_alt in G. apply (Qlt_irrefl (value x)). eapply Qle_lt_trans; [exact X|exact G].
Qed.
Print Assumptions C61_division_is_monotone_partial.
Theorem C61_order_up_to_one_place_partial : forall m a a' b res res' incr incr' x y, wf a -> wf a' -> wf b -> (0 < value b)%Q ->
  significant_units 2 b \/ tame (asked_units a b incr) a b -> significant_units 2 b \/ tame (asked_units a' b incr') a' b -> 
  0 <= incr -> 0 <= incr' -> sane_request a b incr -> sane_request a' b incr' ->
  div_to m a b res incr = Ret (Ok tt, x) -> div_to m a' b res' incr' = Ret (Ok tt, y) -> (value a <= value a')%Q ->
  (value x < value y + pow10 (- Z.min (frac_digits x) (frac_digits y)))%Q.
Proof.
  intros m a a' b res res' incr incr' x y Wa Wa' Wb Pb S S' Hi Hi' Rm Rm' H H' L. assert (Nb : ~ (value b == 0)%Q) by (intros X; rewrite X in Pb; discriminate).
  destruct (C34_truncated_quotient_partial m a b res incr x Wa Wb Nb S Hi Rm H) as (V & _).
  destruct (C34_truncated_quotient_partial m a' b res' incr' y Wa' Wb Nb S' Hi' Rm' H') as (V' & _).
  rewrite V, V'. apply truncate_at_order. apply Qmult_le_compat_r; [exact L|]. apply Qlt_le_weak, Qinv_lt_0_compat, Pb.
Qed.
Print Assumptions C61_order_up_to_one_place_partial.
(** The larger the divisor, the smaller the quotient. *)
Theorem C61_larger_divisors_partial : forall m a b b' res res' incr incr' x y, wf a -> wf b -> wf b' -> (0 <= value a)%Q -> (0 < value b)%Q -> (value b <= value b')%Q ->
  significant_units 2 b \/ tame (asked_units a b incr) a b -> significant_units 2 b' \/ tame (asked_units a b' incr') a b' -> 
  0 <= incr -> 0 <= incr' -> sane_request a b incr -> sane_request a b' incr' ->
  div_to m a b res incr = Ret (Ok tt, x) -> div_to m a b' res' incr' = Ret (Ok tt, y) -> frac_digits x = frac_digits y ->
  (value y <= value x)%Q /\ cmp m y x <> Ret Gt.
Proof.
  intros m a b b' res res' incr incr' x y Wa Wb Wb' Pa Pb L S S' Hi Hi' Rm Rm' H H' F. assert (Nb : ~ (value b == 0)%Q) by (intros X; rewrite X in Pb; discriminate).
  assert (Pb' : (0 < value b')%Q) by (eapply Qlt_le_trans; eassumption). assert (Nb' : ~ (value b' == 0)%Q) by (intros X; rewrite X in Pb'; discriminate).
  destruct (C34_truncated_quotient_partial m a b res incr x Wa Wb Nb S Hi Rm H) as (V & Wx & Cx & _ & Zx & _).
  destruct (C34_truncated_quotient_partial m a b' res' incr' y Wa Wb' Nb' S' Hi' Rm' H') as (V' & Wy & Cy & _ & Zy & _).
  assert (X : (value y <= value x)%Q).
  { rewrite V, V', F. apply truncate_at_mono. apply Qle_shift_div_l; [exact Pb|]. unfold Qdiv.
    setoid_replace (value a * / value b' * value b)%Q with (value a * (value b / value b'))%Q by (field; exact Nb').
    rewrite <- (Qmult_1_r (value a)) at 2. rewrite !(Qmult_comm (value a)). apply Qmult_le_compat_r; [|exact Pa]. apply Qle_shift_div_r; [exact Pb'|]. rewrite Qmult_1_l. exact L. }
  split; [exact X|]. rewrite cmp_numeric_nz by assumption. intros G. injection G as G. apply Qgt_alt in G. apply (Qlt_irrefl (value y)). eapply Qle_lt_trans; [exact X|exact G].
Qed.
Print Assumptions C61_larger_divisors_partial.
Example C61_example : let a := dec "-1.25" in let a' := dec "7.5" in let b := dec "2.4" in let b' := dec "6.1" in wf a /\ wf a' /\ wf b /\ wf b' /\ (0 < value b)%Q /\ (value b <= value b')%Q /\ (value a <= value a')%Q /\
  significant_units 2 b /\ significant_units 2 b' /\ sane_request a b 4 /\ sane_request a' b 4 /\ sane_request a' b' 4 /\
  exists x y z, div_to Debug a b zero 4 = Ret (Ok tt, x) /\ div_to Debug a' b zero 4 = Ret (Ok tt, y) /\ div_to Debug a' b' zero 4 = Ret (Ok tt, z) /\ frac_digits x = frac_digits y /\ frac_digits y = frac_digits z.
Proof.
  cbv zeta. do 4 (split; [hyps|]). split; [vm_compute; reflexivity|]. split; [vm_compute; discriminate|]. split; [vm_compute; discriminate|]. split; [sigu 2400000000 0|]. split; [sigu 6100000000 0|].
  do 3 (split; [hyps|]). do 3 eexists. split; [vm_compute; reflexivity|]. split; [vm_compute; reflexivity|]. split; [vm_compute; reflexivity|]. split; vm_compute; reflexivity.
Qed.
