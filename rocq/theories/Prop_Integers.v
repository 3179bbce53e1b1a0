(** * Properties: arithmetic on machine integers (C77, C78). *)
From Coq Require Import ZArith Zquot List Bool String Lia QArith Qabs Qround Lqa.
From Verif Require Import RemFull Rust Model_Base Model_Cmp Model_Round Model_Decimal Model_Arith Model_Serde Spec Spec_Div Lib Sign AddSubQ Basics Cmp QLib RoundQ MulQ MulLaws DivBasics DivQ DivG2 DivFit Rem4 Conv History Laws Laws4
  Prop_Compare Prop_AddSub Prop_Conv Prop_Mul Prop_Print Prop_Round Prop_Div Prop_Rem Prop_Laws Prop_Laws2 Prop_Laws4 Tests Witness.
Import ListNotations.
Open Scope Z_scope.

(** What checked arithmetic on i64 and u64 gives: the integer, or the range error. *)
Definition is_i64 (z : Z) : Prop := -9223372036854775808 <= z <= 9223372036854775807.
Definition is_u64 (z : Z) : Prop := 0 <= z <= 18446744073709551615.
Definition checked_i64 (z : Z) : result Z :=
  if (-9223372036854775808 <=? z) && (z <=? 9223372036854775807) then Ok z else Err ExceedsConversionTargetRange.
Definition checked_u64 (z : Z) : result Z :=
  if (0 <=? z) && (z <=? 18446744073709551615) then Ok z else Err ExceedsConversionTargetRange.

Lemma as_i64_integer m d z : wf d -> clean d -> (value d == inject_Z z)%Q -> as_i64 m d = Ret (checked_i64 z).
Proof.
  intros W C V. destruct (C19_as_i64 m d W C) as [I1 I2]. unfold checked_i64.
  destruct (Z.leb_spec (-9223372036854775808) z), (Z.leb_spec z 9223372036854775807); cbn [andb];
    first [rewrite I1 by (rewrite V, <- !Zle_Qle; auto); rewrite (round_away_comp _ _ V), round_away_Z; reflexivity | apply I2; rewrite V, <- !Zle_Qle; lia].
Qed.
Lemma as_u64_integer m d z : wf d -> clean d -> ~ negzero d -> (value d == inject_Z z)%Q -> as_u64 m d = Ret (checked_u64 z).
Proof.
  intros W C Z V. destruct (C20_as_u64 m d W C) as [I1 I2]. unfold checked_u64.
  assert (N : neg d = false <-> 0 <= z).
  { destruct (neg d) eqn:E; (split; [intros X; try discriminate X|intros X]); [|pose proof (pos_ge d W E) as P; rewrite V in P; change 0%Q with (inject_Z 0) in P; rewrite <- Zle_Qle in P; exact P|reflexivity].
    exfalso. pose proof (neg_le d W E) as P. rewrite V in P. change 0%Q with (inject_Z 0) in P. rewrite <- Zle_Qle in P. apply Z. split; [exact E|]. rewrite V. replace z with 0 by lia. reflexivity. }
  destruct (Z.leb_spec 0 z), (Z.leb_spec z 18446744073709551615); cbn [andb].
  - rewrite I1 by (split; [apply N; assumption|rewrite V, <- Zle_Qle; assumption]). rewrite (round_away_comp _ _ V), round_away_Z. reflexivity.
  - apply I2. rewrite V, <- Zle_Qle. lia.
  - apply I2. rewrite N. lia.
  - lia.
Qed.

(** The decimal of a machine integer. *)
Record machine (d : fd) (z : Z) : Prop := { mc_reg : regular d; mc_val : (value d == inject_Z z)%Q; mc_frac : frac_digits d = 0; mc_digits : int_digits d <= 27; mc_nz : ~ negzero d }.
Lemma i64_machine m z : is_i64 z -> exists d, from_i64 m z = Ret d /\ machine d z.
Proof.
  intros H. destruct (C18_from_i64_is_exact m z H) as (d & E & W & C & T & N & Z & V & F & _). exists d. split; [exact E|].
  pose proof (from_i64_units3 m z d H E) as U. split; try assumption. unfold regular. auto.
Qed.
Lemma u64_machine m z : is_u64 z -> exists d, from_u64 m z = Ret d /\ machine d z.
Proof.
  intros H. destruct (C18_from_u64_is_exact m z H) as (d & E & (W & C & T & N & Z & V & F & _) & _). exists d. split; [exact E|].
  pose proof (from_u64_units3 m z d H E) as U. split; try assumption. unfold regular. auto.
Qed.
Lemma machine_units d z : machine d z -> 0 <= iu d <= 3 /\ fu d = 0 /\ magnitude d = Z.abs z.
Proof.
  intros [(W & _) V F D _]. pose proof (wf_counts d W) as CD. assert (F0 : fu d = 0) by (unfold fu; rewrite F; reflexivity).
  split; [|split; [exact F0|]].
  - split; [lia|]. unfold iu, units_for. apply Z.lt_succ_r, Z.div_lt_upper_bound; lia.
  - pose proof (Qabs_value_pow d W) as Q. rewrite V, F0 in Q. change (pow10 (- (9 * 0))) with 1%Q in Q. rewrite Qmult_1_r in Q.
    clear - Q. unfold Qeq, Qabs in Q. cbn in Q. lia.
Qed.
Lemma machine_add m a b x y : machine a x -> machine b y -> exists d, add_to m a b zero = Ret (Ok tt, d) /\ wf d /\ clean d /\ (value d == inject_Z (x + y))%Q /\ ~ negzero d.
Proof.
  intros A B. destruct (machine_units a x A) as (UA & FA & _), (machine_units b y B) as (UB & FB & _). destruct A as [(Wa & Ca & _) Va _ _ Za], B as [(Wb & Cb & _) Vb _ _ Zb].
  destruct (proj2 (C22_addition_returns_iff_room m a b zero Wa Wb Ca Cb)) as ([rs d] & E); [right; right; rewrite FA, FB; clear - UA UB; split; [lia|]; right; left; lia|].
  destruct (C22_addition_is_exact m a b zero rs d Wa Wb E) as (-> & W & V & _). destruct (C22_addition_keeps_shape m a b zero _ d Wa Wb E) as (C & _).
  exists d. split; [exact E|]. split; [exact W|]. split; [auto|]. split; [rewrite V, Va, Vb, inject_Z_plus; reflexivity|]. exact (C26_no_negative_zero_add m a b zero _ d Wa Wb Ca Cb Za Zb E).
Qed.
Lemma machine_sub m a b x y : machine a x -> machine b y -> exists d, sub_to m a b zero = Ret (Ok tt, d) /\ wf d /\ clean d /\ (value d == inject_Z (x - y))%Q /\ ~ negzero d.
Proof.
  intros A B. destruct (machine_units a x A) as (UA & FA & _), (machine_units b y B) as (UB & FB & _). destruct A as [(Wa & Ca & _) Va _ _ Za], B as [(Wb & Cb & _) Vb _ _ Zb].
  destruct (proj2 (C23_subtraction_returns_iff_room m a b zero Wa Wb Ca Cb)) as ([rs d] & E); [right; right; rewrite FA, FB; clear - UA UB; split; [lia|]; right; left; lia|].
  destruct (C23_subtraction_is_exact m a b zero rs d Wa Wb E) as (-> & W & V & _). destruct (C23_subtraction_keeps_shape m a b zero _ d Wa Wb E) as (C & _).
  exists d. split; [exact E|]. split; [exact W|]. split; [auto|]. split; [rewrite V, Va, Vb; unfold Z.sub; rewrite inject_Z_plus, inject_Z_opp; reflexivity|]. exact (C26_no_negative_zero_sub m a b zero _ d Wa Wb Ca Cb Za Zb E).
Qed.
Lemma machine_mul m a b x y : machine a x -> machine b y -> exists d, mul_to m a b zero = Ret (Ok tt, d) /\ wf d /\ clean d /\ (value d == inject_Z (x * y))%Q /\ ~ negzero d.
Proof.
  intros A B. pose proof A as [Ra Va Fa Da _]. pose proof B as [Rb Vb Fb Db _]. pose proof Ra as (Wa & Ca & Ta & _). pose proof Rb as (Wb & Cb & Tb & _).
  assert (PF : product_fits a b).
  { unfold product_fits. rewrite Fa, Fb. change (units_for (0 + 0)) with 0. split; [lia|]. unfold units_for. assert ((int_digits a + int_digits b + 8) / 9 < 7) by (apply Z.div_lt_upper_bound; lia). lia. }
  destruct (Qeq_dec (value a) 0) as [Z|Z].
  { exists zero. split; [apply (C32_zero_absorbs m b a zero Wb Wa Cb Ca Z)|]. split; [hyps|]. split; [hyps|]. split; [|hyps].
    rewrite Va in Z. unfold Qeq in Z. cbn in Z. replace x with 0 by lia. reflexivity. }
  assert (I0 : 0 < int_digits a).
  { destruct (Z.le_gt_cases (int_digits a) 0) as [L|L]; [|exact L]. exfalso. pose proof (tight_bound a Wa Ta) as Q. apply Z. apply value_zero_iff; [exact Wa|]. destruct (machine_units a x A) as (_ & _ & M). rewrite M.
    rewrite Va in Q. assert (X : (Qabs (inject_Z x) < 1)%Q). { eapply Qlt_le_trans; [exact Q|]. change 1%Q with (pow10 0). apply pow10_le. lia. }
    clear - X. unfold Qlt, Qabs in X. cbn in X. lia. }
  destruct (C28_multiplication_returns m a b zero Ra Rb PF (or_intror (or_introl I0))) as (d & E).
  destruct (C28_multiplication_is_exact m a b zero _ d Ra Rb PF E) as (_ & V & (W & C & _) & _).
  exists d. split; [exact E|]. split; [exact W|]. split; [exact C|]. split; [rewrite V, Va, Vb, inject_Z_mult; reflexivity|]. exact (C26_no_negative_zero_mul m a b zero _ d Wa Wb Ca Cb Ta Tb E).
Qed.

(** C77: on the decimals of machine integers, +, -, * and the conversion back
    are checked machine arithmetic; nothing panics. *)
Theorem C77_i64_arithmetic : forall m x y, is_i64 x -> is_i64 y ->
  exists a b s t p, from_i64 m x = Ret a /\ from_i64 m y = Ret b /\
    add_to m a b zero = Ret (Ok tt, s) /\ as_i64 m s = Ret (checked_i64 (x + y)) /\
    sub_to m a b zero = Ret (Ok tt, t) /\ as_i64 m t = Ret (checked_i64 (x - y)) /\
    mul_to m a b zero = Ret (Ok tt, p) /\ as_i64 m p = Ret (checked_i64 (x * y)).
Proof.
  intros m x y Hx Hy. destruct (i64_machine m x Hx) as (a & Ea & A), (i64_machine m y Hy) as (b & Eb & B).
  destruct (machine_add m a b x y A B) as (s & Es & Ws & Cs & Vs & _), (machine_sub m a b x y A B) as (t & Et & Wt & Ct & Vt & _), (machine_mul m a b x y A B) as (p & Ep & Wp & Cp & Vp & _).
  exists a, b, s, t, p. do 3 (split; [assumption|]). split; [apply as_i64_integer; assumption|]. split; [assumption|]. split; [apply as_i64_integer; assumption|]. split; [assumption|]. apply as_i64_integer; assumption.
Qed.
Print Assumptions C77_i64_arithmetic.
Theorem C77_u64_arithmetic : forall m x y, is_u64 x -> is_u64 y ->
  exists a b s t p, from_u64 m x = Ret a /\ from_u64 m y = Ret b /\
    add_to m a b zero = Ret (Ok tt, s) /\ as_u64 m s = Ret (checked_u64 (x + y)) /\
    sub_to m a b zero = Ret (Ok tt, t) /\ as_u64 m t = Ret (checked_u64 (x - y)) /\
    mul_to m a b zero = Ret (Ok tt, p) /\ as_u64 m p = Ret (checked_u64 (x * y)).
Proof.
  intros m x y Hx Hy. destruct (u64_machine m x Hx) as (a & Ea & A), (u64_machine m y Hy) as (b & Eb & B).
  destruct (machine_add m a b x y A B) as (s & Es & Ws & Cs & Vs & Zs), (machine_sub m a b x y A B) as (t & Et & Wt & Ct & Vt & Zt), (machine_mul m a b x y A B) as (p & Ep & Wp & Cp & Vp & Zp).
  exists a, b, s, t, p. do 3 (split; [assumption|]). split; [apply as_u64_integer; assumption|]. split; [assumption|]. split; [apply as_u64_integer; assumption|]. split; [assumption|]. apply as_u64_integer; assumption.
Qed.
Print Assumptions C77_u64_arithmetic.
Example C77_example : checked_i64 (9223372036854775807 + 1) = Err ExceedsConversionTargetRange /\ checked_i64 (3037000500 * -3037000499) = Ok (-9223372033963249500) /\
  checked_u64 (1 - 2) = Err ExceedsConversionTargetRange /\ is_i64 (-9223372036854775808) /\ is_u64 18446744073709551615.
Proof. unfold is_i64, is_u64. repeat split; first [vm_compute; reflexivity|lia]. Qed.

(** C78: remainders and quotients of machine integers. Wrong as soon as the
    divisor has 19 digits: 3*10^18+2 modulo 10^18+1 is 10^18, and the quotient 2.99... *)
Theorem C78_integer_remainders_refuted : exists x y, is_i64 x /\ is_i64 y /\ y <> 0 /\
  forall m, exists a b d, from_i64 m x = Ret a /\ from_i64 m y = Ret b /\ rem_to m a b zero = Ret (Ok tt, d) /\ as_i64 m d = Ret (Ok 1) /\ Z.rem x y = 1000000000000000000.
Proof.
  exists 3000000000000000002, 1000000000000000001. split; [unfold is_i64; lia|]. split; [unfold is_i64; lia|]. split; [lia|].
  intros [|]; do 3 eexists; (split; [vm_compute; reflexivity|]); (split; [vm_compute; reflexivity|]); (split; [vm_compute; reflexivity|]); split; vm_compute; reflexivity.
Qed.
Print Assumptions C78_integer_remainders_refuted.
Theorem C78_integer_quotients_refuted : exists x y, is_i64 x /\ is_i64 y /\ y <> 0 /\ exists a b, (forall m, from_i64 m x = Ret a /\ from_i64 m y = Ret b) /\
  div_to Debug a b zero 4 = Panic PAssert /\ exists d, div_to Release a b zero 4 = Ret (Ok tt, d) /\ to_string Release d (-1) = Panic PIndex.
Proof.
  exists 3000000000000000002, 1000000000000000001. split; [unfold is_i64; lia|]. split; [unfold is_i64; lia|]. split; [lia|].
  do 2 eexists. split; [intros [|]; split; vm_compute; reflexivity|]. split; [vm_compute; reflexivity|]. eexists. split; [vm_compute; reflexivity|]. vm_compute. reflexivity.
Qed.
Print Assumptions C78_integer_quotients_refuted.

Lemma machine_two b y : machine b y -> 0 < Z.abs y < 10 ^ 18 -> significant_units 2 b.
Proof. intros B H. destruct (machine_units b y B) as (_ & _ & M). exists (Z.abs y), 0. split; [exact H|]. split; [lia|]. rewrite M. lia. Qed.
Lemma machine_one b y : machine b y -> 0 < Z.abs y < 10 ^ 9 -> significant_units 1 b.
Proof. intros B H. destruct (machine_units b y B) as (_ & _ & M). exists (Z.abs y), 0. split; [exact H|]. split; [lia|]. rewrite M. lia. Qed.
Lemma machine_nonzero b y : machine b y -> y <> 0 -> ~ (value b == 0)%Q.
Proof. intros [_ V _ _ _] H X. rewrite V in X. unfold Qeq in X. cbn in X. lia. Qed.

Lemma rem_is x y q r : y <> 0 -> x = y * q + r -> Z.abs r < Z.abs y -> (r <> 0 -> (r < 0 <-> x < 0)) -> r = Z.rem x y.
Proof.
  intros Hy E L S. apply (Zrem_unique_full x y q r); [|exact E]. unfold Remainder. destruct (Z.eq_dec r 0) as [->|D]; [|specialize (S D)]; lia.
Qed.
Lemma quot_truncate x y : y <> 0 -> truncate (inject_Z x / inject_Z y) = Z.quot x y.
Proof.
  intros Hy. assert (P : forall u v, 0 <= u -> 0 < v -> truncate (inject_Z u / inject_Z v) = Z.quot u v).
  { intros u v Hu Hv. rewrite truncate_pos, <- Zdiv_Qdiv; [symmetry; apply Z.quot_div_nonneg; assumption|]. unfold Qdiv. apply Qmult_le_0_compat; [change 0%Q with (inject_Z 0); rewrite <- Zle_Qle; exact Hu|].
    apply Qinv_le_0_compat. change 0%Q with (inject_Z 0). rewrite <- Zle_Qle. lia. }
  assert (Ny : ~ (inject_Z y == 0)%Q) by (intros X; unfold Qeq in X; cbn in X; lia).
  destruct (Z.le_gt_cases 0 x) as [X|X], (Z.lt_ge_cases 0 y) as [Y|Y].
  - apply P; assumption.
  - rewrite (truncate_comp _ (- (inject_Z x / inject_Z (- y)))%Q), truncate_opp, P, Z.quot_opp_r by (try lia; rewrite inject_Z_opp; field; exact Ny). lia.
  - rewrite (truncate_comp _ (- (inject_Z (- x) / inject_Z y))%Q), truncate_opp, P, Z.quot_opp_l by (try lia; rewrite inject_Z_opp; field; exact Ny). lia.
  - rewrite (truncate_comp _ (inject_Z (- x) / inject_Z (- y))%Q), P, Z.quot_opp_opp by (try lia; rewrite !inject_Z_opp; field; exact Ny). reflexivity.
Qed.

(** The divisor has 19 digits, and the first nine digits of the quotient after
    the point (the first [k] groups of nine) are at most 999999989. *)
Definition far (n x y : Z) : Prop := 10 ^ 18 <= Z.abs y /\ Z.abs x < 10 ^ 20 /\ forall k, 1 <= k <= n -> (Z.abs x * 10 ^ (9 * k) / Z.abs y) mod 10 ^ 9 <= 999999989.
Lemma far_groups a b n x y : machine a x -> machine b y -> far n x y -> forall k, k <= n -> group (value a / value b) k <= 999999989.
Proof.
  intros [_ Va _ _ _] [_ Vb _ _ _] (Hy & Hx & Hk) k Lk. assert (Y0 : (0 < inject_Z (Z.abs y))%Q) by (change 0%Q with (inject_Z 0); rewrite <- Zlt_Qlt; lia).
  assert (Q : (Qabs (value a / value b) == inject_Z (Z.abs x) / inject_Z (Z.abs y))%Q).
  { rewrite Va, Vb. assert (Ny : ~ (inject_Z y == 0)%Q) by (intros X; unfold Qeq in X; cbn in X; lia). assert (N' : ~ (inject_Z (Z.abs y) == 0)%Q) by (intros X; unfold Qeq in X; cbn in X; lia).
    assert (P : forall z, (Qabs (inject_Z z) == inject_Z (Z.abs z))%Q) by (intros z; reflexivity). unfold Qdiv. rewrite Qabs_Qmult, P. apply Qmult_comp; [reflexivity|].
    assert (I : (Qabs (/ inject_Z y) * inject_Z (Z.abs y) == 1)%Q) by (rewrite <- P, <- Qabs_Qmult, (Qmult_comm (/ _)), Qmult_inv_r by exact Ny; reflexivity).
    set (u := Qabs (/ inject_Z y)) in *. set (v := inject_Z (Z.abs y)) in *. clearbody u v. setoid_replace u with (u * v * / v)%Q by (field; exact N'). rewrite I. ring. }
  assert (QS : (Qabs (value a / value b) < pow10 9)%Q).
  { rewrite Q. apply Qlt_shift_div_r; [exact Y0|]. change (pow10 9) with (inject_Z (10 ^ 9)). rewrite <- inject_Z_mult, <- Zlt_Qlt. lia. }
  destruct (Z.lt_ge_cases k 0) as [K|K].
  - rewrite group_small; [lia|]. assert (P : (pow10 (9 * k) <= pow10 (-9))%Q) by (apply pow10_le; lia). pose proof (pow10_pos (9 * k)) as Pp.
    pose proof (Qabs_nonneg (value a / value b)) as N0. assert (PI : (pow10 (-9) * pow10 9 == 1)%Q) by (apply (pow10_inv 9)). set (u := Qabs (value a / value b)) in *. set (p := pow10 (9 * k)) in *. set (r := pow10 (-9)) in *. set (t := pow10 9) in *.
    clearbody u p r t. clear - QS P Pp N0 PI. assert (u * p <= u * r)%Q by nra. assert (0 < r)%Q by lra. assert (u * r < t * r)%Q by nra. lra.
  - assert (G : group (value a / value b) k = (Z.abs x * 10 ^ (9 * k) / Z.abs y) mod 10 ^ 9).
    { unfold group. change base with (10 ^ 9). f_equal. rewrite Zdiv_Qdiv. apply Qfloor_comp. rewrite Q, pow10_nonneg by lia. rewrite inject_Z_mult. unfold Qdiv. ring. }
    rewrite G. destruct (Z.eq_dec k 0) as [->|Kn]; [|apply Hk; lia]. change (10 ^ (9 * 0)) with 1. rewrite Z.mul_1_r.
    assert (B : 0 <= Z.abs x / Z.abs y < 100) by (split; [apply Z.div_pos; lia|apply Z.div_lt_upper_bound; lia]). rewrite Z.mod_small; [lia|]. split; [apply B|]. apply (Z.lt_trans _ 100); [apply B|reflexivity].
Qed.
Lemma machine_rem m a b x y : machine a x -> machine b y -> 0 < Z.abs y < 10 ^ 18 \/ Z.abs x < Z.abs y \/ far 1 x y ->
  (forall rs d, rem_to m a b zero = Ret (rs, d) -> rs = Ok tt /\ wf d /\ clean d /\ ~ negzero d /\ (value d == inject_Z (Z.rem x y))%Q) /\
  (m = Release \/ Z.abs y < 10 ^ 9 \/ Z.abs x < Z.abs y \/ far 1 x y -> exists d, rem_to m a b zero = Ret (Ok tt, d)).
Proof.
  intros A B H. assert (Hy : y <> 0) by (unfold far in H; lia). destruct (machine_units a x A) as (UA & FA & MA), (machine_units b y B) as (UB & FB & MB). pose proof (machine_nonzero b y B Hy) as Nb.
  assert (R17 : iu a + fu b <= 17) by (rewrite FB; lia). pose proof A as [(Wa & _) Va _ _ Za]. pose proof B as [(Wb & _) Vb _ _ _].
  assert (SM : Z.abs x < Z.abs y -> (Qabs (value a) < Qabs (value b))%Q).
  { intros L. rewrite Va, Vb. unfold Qlt, Qabs. cbn. clear - L. lia. }
  assert (FR : far 1 x y -> guesses_right (scaled a) (scaled b) /\ guesses_small (scaled a) (scaled b)).
  { intros F. apply C37_tame_quotients; try assumption. intros k Hk. apply (far_groups a b 1 x y A B F k Hk). }
  assert (G : guesses_right (scaled a) (scaled b)).
  { destruct H as [H|[H|H]]; [apply C37_two_units; [exact Wb|apply (machine_two b y B H)]|apply C37_smaller_dividend; auto|apply FR, H]. }
  split.
  - intros rs d E. destruct (C37_truncated_remainder_partial m a b zero rs d Wa Wb Nb G E) as (-> & (q & V & L) & S & Z & W & C & _).
    split; [reflexivity|]. split; [exact W|]. split; [exact C|]. split; [exact Z|].
    assert (Vd : (value d == inject_Z (x - y * q))%Q) by (unfold Z.sub; rewrite inject_Z_plus, inject_Z_opp, inject_Z_mult, <- Va, <- Vb, V; ring).
    rewrite Vd. apply inject_Z_injective. apply (rem_is x y q); [exact Hy|lia| |].
    + rewrite Vd, Vb in L. unfold Qlt, Qabs in L. cbn in L. clear - L. lia.
    + intros D. assert (Dn : ~ (value d == 0)%Q) by (rewrite Vd; intros X; unfold Qeq in X; cbn in X; lia). specialize (S Dn). clear - S Vd Va Dn W Wa D Hy Za.
      assert (Pn : forall e z, wf e -> (value e == inject_Z z)%Q -> (neg e = true -> z <= 0) /\ (neg e = false -> 0 <= z)).
      { intros e z We Ve. split; intros N; [pose proof (neg_le e We N) as P|pose proof (pos_ge e We N) as P]; rewrite Ve in P; change 0%Q with (inject_Z 0) in P; rewrite <- Zle_Qle in P; exact P. }
      destruct (Pn d _ W Vd) as [D1 D2], (Pn a x Wa Va) as [A1 A2]. rewrite S in D1, D2. destruct (neg a) eqn:Na; [specialize (D1 eq_refl); specialize (A1 eq_refl)|specialize (D2 eq_refl); specialize (A2 eq_refl)]; [|lia].
      destruct (Z.eq_dec x 0) as [->|]; [|lia]. exfalso. apply Za. split; [exact Na|exact Va].
  - intros R. apply C53_remainder_returns_partial; auto.
    + apply roomy; assumption.
    + intros ->. destruct R as [R|[R|[R|R]]]; [discriminate R| |apply C37_smaller_dividend; auto|apply FR, R]. apply significant_small; [exact Wb|apply (machine_one b y B); lia].
    + right. right. left. lia.
Qed.
Lemma rem_range x y : is_i64 y -> y <> 0 -> checked_i64 (Z.rem x y) = Ok (Z.rem x y).
Proof. intros H Hy. pose proof (Z.rem_bound_abs x y Hy) as B. unfold checked_i64, is_i64 in *. destruct (Z.leb_spec (-9223372036854775808) (Z.rem x y)), (Z.leb_spec (Z.rem x y) 9223372036854775807); try reflexivity; lia. Qed.

(** What holds: below 10^18 (and for dividends smaller than the divisor) the
    remainder is Rust's [%], if it returns. In a release build it does; in a debug build if the divisor has
    nine digits. *)
Theorem C78_i64_remainders_partial : forall m x y, is_i64 x -> is_i64 y -> 0 < Z.abs y < 10 ^ 18 \/ Z.abs x < Z.abs y \/ far 1 x y ->
  exists a b, from_i64 m x = Ret a /\ from_i64 m y = Ret b /\
    (forall rs d, rem_to m a b zero = Ret (rs, d) -> rs = Ok tt /\ as_i64 m d = Ret (Ok (Z.rem x y))) /\
    (m = Release \/ Z.abs y < 10 ^ 9 \/ Z.abs x < Z.abs y \/ far 1 x y -> exists d, rem_to m a b zero = Ret (Ok tt, d)).
Proof.
  intros m x y Hx Hy H. destruct (i64_machine m x Hx) as (a & Ea & A), (i64_machine m y Hy) as (b & Eb & B). exists a, b. split; [exact Ea|]. split; [exact Eb|].
  destruct (machine_rem m a b x y A B H) as [R1 R2]. split; [|exact R2]. intros rs d E. destruct (R1 rs d E) as (-> & W & C & _ & V). split; [reflexivity|].
  rewrite (as_i64_integer m d _ W C V), rem_range; [reflexivity|exact Hy|unfold far in H; lia].
Qed.
Print Assumptions C78_i64_remainders_partial.
Theorem C78_u64_remainders_partial : forall m x y, is_u64 x -> is_u64 y -> 0 < y < 10 ^ 18 \/ x < y \/ far 1 x y ->
  exists a b, from_u64 m x = Ret a /\ from_u64 m y = Ret b /\
    (forall rs d, rem_to m a b zero = Ret (rs, d) -> rs = Ok tt /\ as_u64 m d = Ret (Ok (x mod y))) /\
    (m = Release \/ y < 10 ^ 9 \/ x < y \/ far 1 x y -> exists d, rem_to m a b zero = Ret (Ok tt, d)).
Proof.
  intros m x y Hx Hy H. destruct (u64_machine m x Hx) as (a & Ea & A), (u64_machine m y Hy) as (b & Eb & B). exists a, b. split; [exact Ea|]. split; [exact Eb|]. unfold is_u64 in *.
  assert (H' : 0 < Z.abs y < 10 ^ 18 \/ Z.abs x < Z.abs y \/ far 1 x y) by (destruct H as [H|[H|H]]; [left; lia|right; left; lia|auto]). assert (Y0 : 0 < y) by (clear - H Hx Hy; unfold far in H; lia).
  destruct (machine_rem m a b x y A B H') as [R1 R2]. split; [|intros R; apply R2; destruct R as [R|[R|[R|R]]]; [left; exact R|right; left; lia|right; right; left; lia|auto]]. intros rs d E. destruct (R1 rs d E) as (-> & W & C & Z & V). split; [reflexivity|].
  rewrite Z.rem_mod_nonneg in V by lia. rewrite (as_u64_integer m d _ W C Z V). unfold checked_u64. pose proof (Z.mod_pos_bound x y ltac:(lia)) as M.
  destruct (Z.leb_spec 0 (x mod y)), (Z.leb_spec (x mod y) 18446744073709551615); try reflexivity; clear - M H0 H1 Hy Y0; lia.
Qed.
Print Assumptions C78_u64_remainders_partial.

Lemma machine_div m a b x y : machine a x -> machine b y -> 0 < Z.abs y < 10 ^ 18 \/ far 1 x y ->
  (forall rs q, div_to m a b zero 4 = Ret (rs, q) -> rs = Ok tt /\ wf q /\ clean q /\ ~ negzero q /\ (x <> 0 -> frac_digits q = 9) /\ (value q == truncate_at (inject_Z x / inject_Z y) (frac_digits q))%Q) /\
  (m = Release \/ Z.abs y < 10 ^ 9 \/ far 1 x y -> exists q, div_to m a b zero 4 = Ret (Ok tt, q)).
Proof.
  intros A B H. assert (Hy : y <> 0) by (unfold far in H; lia). destruct (machine_units a x A) as (UA & FA & MA), (machine_units b y B) as (UB & FB & MB). pose proof (machine_nonzero b y B Hy) as Nb.
  pose proof A as [(Wa & _) Va F0a _ Za]. pose proof B as [(Wb & _) Vb F0b _ _]. 
  assert (Rm : div_room a b 4) by (apply C34_room; try assumption; lia). pose proof (room_sane a b 4 Rm) as Sn.
  assert (TM : far 1 x y -> tame (asked_units a b 4) a b).
  { intros FF. unfold asked_units. rewrite FA, FB, F0a, F0b. change (Z.min 4 (Z.max (0 + 0) (units_for (0 + 0 + 4)))) with 1. split.
    - intros k Hk. apply (far_groups a b 1 x y A B FF k Hk).
    - left. exists 0, (y * 10 ^ 9). split; [lia|]. split; [auto|]. rewrite FA, Vb, inject_Z_mult. apply Qmult_comp; reflexivity. }
  assert (S2 : significant_units 2 b \/ tame (asked_units a b 4) a b) by (destruct H as [H|H]; [left; apply (machine_two b y B H)|right; apply TM, H]).
  assert (Vq : (value a / value b == inject_Z x / inject_Z y)%Q) by (rewrite Va, Vb; reflexivity).
  assert (SmallQ : (Qabs (value a / value b) < pow10 81)%Q).
  { destruct (Qlt_le_dec (Qabs (value a / value b)) (pow10 81)) as [L|L]; [exact L|exfalso].
    assert (La : (Qabs (value a) < pow10 27)%Q) by (eapply Qlt_le_trans; [apply (value_bound a Wa)|apply pow10_le; lia]).
    assert (Lb : (1 <= Qabs (value b))%Q) by (rewrite Vb; unfold Qle, Qabs; cbn; lia).
    assert (E : (Qabs (value a / value b) * Qabs (value b) == Qabs (value a))%Q) by (rewrite <- Qabs_Qmult; apply Qabs_wd; field; exact Nb).
    assert (P : (pow10 27 <= pow10 81)%Q) by (apply pow10_le; lia). pose proof (Qabs_nonneg (value a / value b)) as N0.
    set (q := Qabs (value a / value b)) in *. set (u := Qabs (value a)) in *. set (v := Qabs (value b)) in *. set (p := pow10 81) in *. set (r := pow10 27) in *. clearbody q u v p r. clear - L La Lb E P N0. nra. }
  assert (RS : forall rs q, div_to m a b zero 4 = Ret (rs, q) -> rs = Ok tt).
  { intros [[]|e] q E; [reflexivity|exfalso]. destruct (C34_overflow_iff m a b zero 4 Wa Wb Nb ltac:(lia) Rm) as [O _]. exact (O SmallQ e q E). }
  split.
  - intros rs q E. pose proof (RS rs q E) as ->. split; [reflexivity|].
    destruct (C34_truncated_quotient_partial m a b zero 4 q Wa Wb Nb S2 ltac:(lia) Sn E) as (V & W & C & _ & Z & _).
    split; [exact W|]. split; [exact C|]. split; [exact Z|]. split.
    + intros Hx. destruct (C34_quotient_units_partial m a b zero 4 q Wa Wb (machine_nonzero a x A Hx) Nb S2 ltac:(lia) Sn E) as (Q1 & Q2 & F).
      rewrite FA, FB, F0a, F0b in F. change (units_for (0 + 0 + 4)) with 1 in F. change (Z.max (0 + 0) 1) with 1 in F. pose proof (wf_counts q W) as CQ.
      assert (iu q <= 8); [|lia]. destruct (Z.le_gt_cases (iu q) 8) as [L|L]; [exact L|exfalso]. specialize (Q2 ltac:(lia)).
      assert (La : (Qabs (value a) < pow10 27)%Q) by (eapply Qlt_le_trans; [apply (value_bound a Wa)|apply pow10_le; lia]).
      assert (Lb : (1 <= Qabs (value b))%Q) by (rewrite Vb; unfold Qle, Qabs; cbn; lia).
      assert (Eq : (Qabs (value a / value b) * Qabs (value b) == Qabs (value a))%Q) by (rewrite <- Qabs_Qmult; apply Qabs_wd; field; exact Nb).
      assert (P : (pow10 27 <= pow10 (9 * (iu q - 1)))%Q) by (apply pow10_le; lia). pose proof (Qabs_nonneg (value a / value b)) as N0.
      set (w := Qabs (value a / value b)) in *. set (u := Qabs (value a)) in *. set (v := Qabs (value b)) in *. set (p := pow10 (9 * (iu q - 1))) in *. set (r := pow10 27) in *. clearbody w u v p r. clear - Q2 La Lb Eq P N0. nra.
    + rewrite V. apply truncate_at_comp, Vq.
  - intros R. destruct (C35_division_returns_partial m a b zero 4 Wa Wb Nb) as ([rs q] & E); try assumption; [|lia|lia|exists q; rewrite <- (RS rs q E); exact E].
    destruct H as [H|H]; [|right; apply TM, H]. left. split; [apply (machine_two b y B H)|]. intros ->. destruct R as [R|[R|R]]; [discriminate R| |unfold far in R; lia]. apply (machine_one b y B). lia.
Qed.

Lemma quotient_in_range x y : -9223372036854775808 <= x <= 9223372036854775807 -> -9223372036854775808 <= y <= 9223372036854775807 -> y <> 0 ->
  (inject_Z (-9223372036854775808) <= inject_Z x / inject_Z y /\ inject_Z x / inject_Z y <= inject_Z 9223372036854775807)%Q \/ (inject_Z x / inject_Z y == inject_Z 9223372036854775808)%Q.
Proof.
  intros Hx Hy Y0. assert (Ny : ~ (inject_Z y == 0)%Q) by (intros X; unfold Qeq in X; cbn in X; lia).
  assert (D : (x = -9223372036854775808 /\ y = -1) \/ (-9223372036854775808 * Z.abs y <= x * Z.sgn y <= 9223372036854775807 * Z.abs y)).
  { destruct (Z.eq_dec y (-1)) as [->|]; [destruct (Z.eq_dec x (-9223372036854775808)); [left; auto|right; lia]|]. right. destruct (Z.lt_trichotomy y 0) as [L|[L|L]]; [|lia|]; nia. }
  destruct D as [[-> ->]|[D1 D2]]; [right; reflexivity|left].
  assert (P : forall u v, 0 < v -> (inject_Z (-9223372036854775808) * inject_Z v <= inject_Z u)%Q -> (inject_Z u <= inject_Z 9223372036854775807 * inject_Z v)%Q ->
    (inject_Z (-9223372036854775808) <= inject_Z u / inject_Z v /\ inject_Z u / inject_Z v <= inject_Z 9223372036854775807)%Q).
  { intros u v Hv U1 U2. assert (V : (0 < inject_Z v)%Q) by (change 0%Q with (inject_Z 0); rewrite <- Zlt_Qlt; exact Hv). split; [apply Qle_shift_div_l|apply Qle_shift_div_r]; assumption. }
  assert (E : (inject_Z x / inject_Z y == inject_Z (x * Z.sgn y) / inject_Z (Z.abs y))%Q).
  { destruct (Z.lt_ge_cases y 0) as [L|L]; [rewrite Z.sgn_neg, Z.abs_neq by lia|rewrite Z.sgn_pos, Z.abs_eq by lia].
    - replace (x * -1) with (- x) by lia. rewrite !inject_Z_opp. field. exact Ny.
    - rewrite Z.mul_1_r. reflexivity. }
  rewrite E. apply P; [lia| |]; rewrite <- inject_Z_mult, <- Zle_Qle; assumption.
Qed.
(** Quotients: printed without fractional digits they are Rust's [/], and
    converted back the exact quotient rounded half away from zero (i64::MIN / -1 is out of range). *)
Theorem C78_i64_quotients_partial : forall m x y, is_i64 x -> is_i64 y -> 0 < Z.abs y < 10 ^ 18 \/ far 1 x y ->
  exists a b, from_i64 m x = Ret a /\ from_i64 m y = Ret b /\
    (forall rs q, div_to m a b zero 4 = Ret (rs, q) -> rs = Ok tt /\
       (exists n, to_string m q 0 = Ret (numeral_bytes n) /\ canonical n /\ n_frac n = [] /\ (numeral_value n == inject_Z (Z.quot x y))%Q) /\
       as_i64 m q = Ret (checked_i64 (round_away (inject_Z x / inject_Z y)))) /\
    (m = Release \/ Z.abs y < 10 ^ 9 \/ far 1 x y -> exists q, div_to m a b zero 4 = Ret (Ok tt, q)).
Proof.
  intros m x y Hx Hy H. destruct (i64_machine m x Hx) as (a & Ea & A), (i64_machine m y Hy) as (b & Eb & B). exists a, b. split; [exact Ea|]. split; [exact Eb|].
  destruct (machine_div m a b x y A B H) as [R1 R2]. split; [|exact R2]. intros rs q E. destruct (R1 rs q E) as (-> & W & C & Z & F & V). split; [reflexivity|].
  pose proof (frac_le_fu q W) as [[F0 _] _]. assert (Y0 : y <> 0) by (unfold far in H; lia). split.
  - destruct (C09_to_string_truncates m q 0 W ltac:(lia)) as (n & E1 & E2 & _ & E3 & E4). exists n. split; [exact E1|]. split; [exact E2|].
    split; [destruct (n_frac n) as [|? l]; [reflexivity|unfold zlength in E3; cbn in E3; lia]|].
    rewrite E4. unfold truncate_at. change (pow10 (- 0)) with 1%Q. rewrite Qmult_1_r. rewrite (truncate_comp (value q * pow10 0) (truncate_at (inject_Z x / inject_Z y) (frac_digits q))) by (change (pow10 0) with 1%Q; rewrite Qmult_1_r; exact V).
    rewrite truncate_truncate by exact F0. rewrite quot_truncate by exact Y0. reflexivity.
  - assert (RA : round_away (value q) = round_away (inject_Z x / inject_Z y)).
    { rewrite (round_away_comp _ _ V). destruct (Z.eq_dec x 0) as [->|Hx0]; [|rewrite (F Hx0); apply round_away_truncate; lia].
      assert (X : (inject_Z 0 / inject_Z y == 0)%Q) by (unfold Qdiv; ring). rewrite (round_away_comp _ _ (truncate_at_comp _ _ (frac_digits q) X)), (round_away_comp _ _ X).
      apply round_away_comp. unfold truncate_at. rewrite (truncate_comp (0 * pow10 (frac_digits q)) (inject_Z 0)) by (change (inject_Z 0) with 0%Q; ring). rewrite truncate_Z. change (inject_Z 0) with 0%Q. ring. }
    destruct (C19_as_i64 m q W C) as [I1 I2]. rewrite <- RA. clear RA.
    assert (T : forall z, (truncate_at (inject_Z z) (frac_digits q) == inject_Z z)%Q) by (intros z; apply (truncate_at_exact _ z 0); [lia|change (pow10 (- 0)) with 1%Q; ring]).
    unfold is_i64 in *. destruct (quotient_in_range x y Hx Hy Y0) as [[L1 L2]|L].
    + apply (truncate_at_mono _ _ (frac_digits q)) in L1. apply (truncate_at_mono _ _ (frac_digits q)) in L2. rewrite T, <- V in L1, L2. rewrite I1 by (split; assumption).
      apply round_away_mono in L1. apply round_away_mono in L2. rewrite round_away_Z in L1, L2. unfold checked_i64. 
      destruct (Z.leb_spec (-9223372036854775808) (round_away (value q))), (Z.leb_spec (round_away (value q)) 9223372036854775807); try reflexivity; lia.
    + assert (Vz : (value q == inject_Z 9223372036854775808)%Q) by (rewrite V, (truncate_at_comp _ _ _ L); apply T).
      rewrite I2 by (rewrite Vz, <- !Zle_Qle; lia). rewrite (round_away_comp _ _ Vz), round_away_Z. reflexivity.
Qed.
Print Assumptions C78_i64_quotients_partial.
Example C78_far_example : far 1 9223372036854775807 (-1234567890123456789) /\ ~ far 1 3000000000000000002 1000000000000000001.
Proof.
  split.
  - split; [lia|]. split; [lia|]. intros k Hk. assert (k = 1) as -> by lia; vm_compute; discriminate.
  - intros (_ & _ & H). specialize (H 1 ltac:(lia)). revert H. vm_compute. intros H. apply H. reflexivity.
Qed.
Example C78_example : is_i64 (-9223372036854775808) /\ 0 < Z.abs (-1) < 10 ^ 18 /\ Z.quot (-9223372036854775808) 1000000007 = -9223371972 /\ Z.rem (-9223372036854775808) 1000000007 = -291172004 /\
  round_away (inject_Z (-9223372036854775808) / inject_Z 1000000007) = -9223371972 /\
  (forall m, exists a b q d, from_i64 m (-9223372036854775808) = Ret a /\ from_i64 m 1000000007 = Ret b /\ div_to m a b zero 4 = Ret (Ok tt, q) /\ rem_to m a b zero = Ret (Ok tt, d) /\
     to_string m q 0 = Ret (bytes "-9223371972") /\ as_i64 m d = Ret (Ok (-291172004))).
Proof.
  split; [unfold is_i64; lia|]. split; [lia|]. split; [vm_compute; reflexivity|]. split; [vm_compute; reflexivity|]. split; [vm_compute; reflexivity|].
  intros [|]; do 4 eexists; (split; [vm_compute; reflexivity|]); (split; [vm_compute; reflexivity|]); (split; [vm_compute; reflexivity|]); (split; [vm_compute; reflexivity|]); split; vm_compute; reflexivity.
Qed.
