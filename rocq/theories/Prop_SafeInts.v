(** * Properties: the quotients of machine integers in release builds (C100). [quotient_found] is in [Spec_Guess]. *)
From Coq Require Import ZArith Zquot List Bool String Lia QArith Qabs Qround Lqa.
From Verif Require Import Rust Model_Base Model_Decimal Model_Arith Model_Serde Spec Spec_Div Spec_Guess Spec_Machine Lib QLib Sign Basics AddSub Cmp DivBasics Div3 Div5 DivQ DivFit DivG2 DivDebug DivSafe3 Laws MulQ RoundQ RemG Rem4 Rem7
  Prop_Print Prop_Conv Prop_Div Prop_Robust Prop_Rem Prop_Exact Prop_Integers Prop_Near Prop_DivDebug Prop_RemIff Prop_Safe Prop_SafeEnd Tests Witness.
Import ListNotations.
Open Scope Z_scope.

Lemma long_found_right u v : 0 <= u < 10 ^ 20 -> 10 ^ 18 <= v < 10 ^ 20 -> (v <= u -> shortened_quotient u v = u / v) -> right_but_last (u * base) v.
Proof.
  intros [U0 X] [V0 VV]. unfold shortened_quotient. rewrite !Z.abs_eq by lia. 
  change (10 ^ 9) with base. change (10 ^ 18) with (base ^ 2) in *. change (10 ^ 20) with (100 * base ^ 2) in *. assert (B2 : base ^ 2 = base * base) by reflexivity. assert (BB : base = 1000000000) by reflexivity.
  assert (P2 : 0 < base ^ 2) by reflexivity. assert (Hv : 0 < v) by (clear - V0 P2; lia).
  assert (L3 : base ^ (3 - 1) <= v < base ^ 3) by (change (3 - 1) with 2; split; [exact V0|]; apply Z.lt_trans with (1 := VV); reflexivity).
  assert (NFE : norm_factor v 3 = base / (v / base ^ 2 + 1)) by reflexivity.
  cbv zeta. set (f := base / (v / base ^ 2 + 1)) in *. clearbody f.
  assert (UM : u mod (v * base ^ 1) = u). { apply Z.mod_small. split; [exact U0|]. rewrite Z.pow_1_r. apply Z.lt_le_trans with (1 := X). clear - V0 BB P2. set (p := base ^ 2) in *. clearbody p. rewrite BB. lia. }
  assert (R1 : rest u v 0 = u) by exact UM.
  assert (D2 : f * v / base ^ (3 - 2) = f * v / base) by (change (3 - 2) with 1; rewrite Z.pow_1_r; reflexivity).
  assert (S1 : second_guess (u * base) v 3 1 = f * u / base / (f * v / base)).
  { change 1 with (0 + 1). rewrite second_guess_shift by (clear - Hv; lia). unfold second_guess. cbv zeta. rewrite NFE, D2, R1. change (0 + 3 - 2) with 1. rewrite Z.pow_1_r. reflexivity. }
  assert (Q1 : quotient_unit (u * base) v 1 = u / v).
  { unfold quotient_unit, rest. rewrite Z.pow_1_r. change (1 + 1) with 2. replace (v * base ^ 2) with (v * base ^ 1 * base) by (rewrite B2, Z.pow_1_r; ring).
    rewrite Z.mul_mod_distr_r by (try discriminate; clear - Hv BB; rewrite Z.pow_1_r, BB; lia). rewrite UM. apply Z.div_mul_cancel_r; [clear - Hv; lia|discriminate]. }
  rewrite <- S1, <- Q1. intros H len j Hl By Hj G. assert (len = 3) as -> by (apply (len_unique v); try assumption; clear - Hl; lia).
  destruct (Z.eq_dec j 1) as [->|J1].
  - apply H. rewrite Z.pow_1_r in G. clear - G BB. rewrite BB in G. lia.
  - exfalso. assert (G1 : v * base ^ 2 <= v * base ^ j) by (apply Z.mul_le_mono_nonneg_l; [clear - Hv; lia|]; apply Z.pow_le_mono_r; [reflexivity|clear - Hj J1; lia]).
    clear - G G1 V0 X B2 BB. set (w := v * base ^ j) in *. clearbody w. rewrite B2, BB in *. lia.
Qed.

Lemma found_right x y : Z.abs x < 10 ^ 20 -> 0 < Z.abs y < 10 ^ 20 -> quotient_found x y -> right_but_last (Z.abs x * base) (Z.abs y).
Proof.
  intros Hx Hy H. destruct (Z.lt_ge_cases (Z.abs y) (10 ^ 18)) as [L|L].
  - intros len j Hl By Hj G. refine (two_units_right _ _ (Z.abs y) 0 _ ltac:(lia) _ len j Hl By ltac:(lia) G); [|rewrite Z.pow_0_r; lia]. change (base ^ 2) with (10 ^ 18). lia.
  - apply long_found_right; [lia|lia|]. intros V. specialize (H L V). unfold shortened_quotient in *. rewrite !Z.abs_involutive. exact H.
Qed.

Lemma machine_release_div a b x y : machine a x -> machine b y -> y <> 0 -> Z.abs x < 10 ^ 20 -> Z.abs y < 10 ^ 20 -> quotient_found x y ->
  exists q, div_to Release a b zero 4 = Ret (Ok tt, q) /\ wf q /\ clean q /\ ~ negzero q /\ (x <> 0 -> frac_digits q = 9) /\ (value q == truncate_at (inject_Z x / inject_Z y) (frac_digits q))%Q.
Proof.
  intros A B Hy Hx Hy' QF. destruct (machine_units a x A) as (UA & FA & MA), (machine_units b y B) as (UB & FB & MB). pose proof (machine_nonzero b y B Hy) as Nb.
  pose proof A as [(Wa & _) Va F0a _ Za]. pose proof B as [(Wb & _) Vb F0b _ _]. pose proof (machine_cut a b x y A B) as NC.
  assert (Rm : div_room a b 4) by (apply C34_room; try assumption; lia). pose proof (room_sane a b 4 Rm) as Sn.
  assert (Vq : (value a / value b == inject_Z x / inject_Z y)%Q) by (rewrite Va, Vb; reflexivity).
  assert (QB : (Qabs (value a / value b) < pow10 20)%Q) by (rewrite Vq; apply integer_quotient_bound; [exact Hy|lia|exact Hx]).
  assert (AU : asked_units a b 4 = 1) by (unfold asked_units; rewrite FA, FB, F0a, F0b; reflexivity).
  assert (GR : guesses_right_but_last a b 4).
  { intros e He E1 E2. cbv zeta. rewrite AU, FA, FB, MA, MB.
    assert (E3 : e <= 3). { destruct (Z.le_gt_cases e 3) as [|C]; [assumption|exfalso]. apply (Qlt_not_le _ _ QB). eapply Qle_trans; [|apply E2; lia]. apply pow10_mono. lia. }
    replace (Z.min (9 - e) 1) with 1 by (clear - E3; lia). change (base ^ (1 + 0)) with base. rewrite Z.pow_0_r, Z.mul_1_r. apply found_right; [exact Hx|lia|exact QF]. }
  assert (DF : division_fits a b 4).
  { destruct (Qeq_dec (value a) 0) as [V0|V0]; [intros p q L _; destruct (no_leading a p V0 L)|]. apply fits_simple; try assumption. lia. }
  destruct (C97_release_quotients a b zero 4 Wa Wb Nb NC ltac:(lia) Sn GR) as [R1 R2]. destruct (proj2 R1 DF) as ([rs q] & E).
  assert (Ok1 : rs = Ok tt).
  { destruct rs as [[]|e]; [reflexivity|exfalso]. destruct (C34_overflow_iff Release a b zero 4 Wa Wb Nb ltac:(lia) Rm) as [O _]. refine (O _ e q E). eapply Qlt_le_trans; [exact QB|]. apply pow10_mono. lia. }
  subst rs. exists q. split; [exact E|]. destruct (R2 q E) as (V & W & C & _ & NZ & _).
  split; [exact W|]. split; [exact C|]. split; [exact NZ|]. split; [|rewrite V; apply truncate_at_comp, Vq].
  intros X0. destruct (div_to_run_gen Release a b zero 4 _ q Wa Wb (machine_nonzero a x A X0) Nb ltac:(lia) Sn (release_good a b 4 Wa Wb NC GR) E) as (e & E1 & E2 & [(_ & ? & _)|(_ & _ & _ & _ & _ & _ & _ & I & F1 & F2 & _)]); [discriminate|].
  rewrite F1, I in *. rewrite FA, FB, F0a, F0b in F2. change (units_for (0 + 0 + 4)) with 1 in F2. change (Z.max (0 + 0) 1) with 1 in F2.
  assert (e <= 3). { destruct (Z.le_gt_cases e 3) as [L|L]; [exact L|exfalso]. apply (Qlt_not_le _ _ QB). eapply Qle_trans; [|exact E1]. apply pow10_mono. lia. }
  rewrite F2. lia.
Qed.

(** A wrong guess of the integral part means that the remainder is less than 40 below the divisor. *)
Lemma wrong_guess_near u v : 0 <= u < 19 * 10 ^ 18 -> 10 ^ 18 <= v -> v <= u -> shortened_quotient u v <> u / v -> v - u mod v < 40.
Proof.
  intros Hu Hv VU. unfold shortened_quotient. rewrite !Z.abs_eq by lia. change (10 ^ 9) with base. change (10 ^ 18) with (base ^ 2) in *. cbv zeta.
  assert (P2 : 0 < base ^ 2) by reflexivity. assert (BB : base = 1000000000) by reflexivity. assert (B2 : base ^ 2 = 1000000000000000000) by reflexivity.
  assert (V0 : 1 <= v / base ^ 2 <= 18).
  { split; [apply Z.div_le_lower_bound; lia|]. assert (v / base ^ 2 < 19); [|lia]. apply Z.div_lt_upper_bound; [exact P2|]. lia. }
  pose proof (Z.mul_div_le v (base ^ 2) P2) as M0. set (v0 := v / base ^ 2) in *. clearbody v0.
  assert (F1 : base - v0 <= base / (v0 + 1) * (v0 + 1)). { pose proof (Z.div_mod base (v0 + 1) ltac:(lia)). pose proof (Z.mod_pos_bound base (v0 + 1) ltac:(lia)). lia. }
  assert (F0 : 1 <= base / (v0 + 1)) by (apply Z.div_le_lower_bound; [lia|rewrite BB; lia]).
  set (f := base / (v0 + 1)) in *. clearbody f.
  pose proof (Z.div_mod u v ltac:(lia)) as DM. pose proof (Z.mod_pos_bound u v ltac:(lia)) as BM.
  assert (Q1 : 1 <= u / v) by (apply Z.div_le_lower_bound; lia). set (q := u / v) in *. set (r := u mod v) in *. clearbody q r.
  pose proof (Z.div_mod (f * v) base ltac:(discriminate)) as DA. pose proof (Z.mod_pos_bound (f * v) base ltac:(reflexivity)) as BA.
  assert (A0 : 0 < f * v / base). { apply Z.div_str_pos. split; [reflexivity|]. rewrite BB. clear - F0 Hv B2. rewrite B2 in *. nia. }
  set (A := f * v / base) in *. set (t := (f * v) mod base) in *. clearbody A t.
  intros N. assert (S1 : q <= f * u / base / A).
  { apply Z.div_le_lower_bound; [exact A0|]. apply Z.div_le_lower_bound; [reflexivity|].
    assert (f * u = q * (f * v) + f * r) by (rewrite DM; ring). assert (0 <= f * r) by (apply Z.mul_nonneg_nonneg; lia). assert (0 <= q * t) by (apply Z.mul_nonneg_nonneg; lia). rewrite H, DA. clear - H0 H1. lia. }
  assert (S2 : (q + 1) * A <= f * u / base). { pose proof (Z.mul_div_le (f * u / base) A A0) as X. set (s := f * u / base / A) in *. clearbody s. assert (q + 1 <= s) by lia. clear - X H A0. nia. }
  assert (S3 : (q + 1) * A * base <= f * u). { pose proof (Z.mul_div_le (f * u) base ltac:(reflexivity)) as X. clear - X S2. set (s := f * u / base) in *. clearbody s. assert ((q + 1) * A * base <= s * base) by (apply Z.mul_le_mono_nonneg_r; [discriminate|exact S2]). lia. }
  assert (S4 : f * (v - r) <= (q + 1) * (base - 1)).
  { assert (E1 : (q + 1) * (f * v) = (q + 1) * A * base + (q + 1) * t) by (rewrite DA; ring). assert (E2 : f * u = q * (f * v) + f * r) by (rewrite DM; ring).
    assert (E3 : (q + 1) * t <= (q + 1) * (base - 1)) by (apply Z.mul_le_mono_nonneg_l; lia). clear - S3 E1 E2 E3. lia. }
  assert (K1 : q * v0 <= 18). { assert (X : q * (base ^ 2 * v0) <= q * v) by (apply Z.mul_le_mono_nonneg_l; [lia|exact M0]). rewrite B2 in *. clear - X DM BM Hu. lia. }
  assert (K2 : (q + 1) * (v0 + 1) <= 38). { assert (0 <= (q - 1) * (v0 - 1)) by (apply Z.mul_nonneg_nonneg; lia). clear - K1 H. lia. }
  destruct (Z.lt_ge_cases (v - r) 40) as [|C]; [assumption|exfalso].
  assert (X1 : 40 * (base - v0) <= f * (v - r) * (v0 + 1)).
  { apply Z.le_trans with (40 * (f * (v0 + 1))); [lia|]. replace (f * (v - r) * (v0 + 1)) with ((v - r) * (f * (v0 + 1))) by ring. apply Z.mul_le_mono_nonneg_r; [apply Z.mul_nonneg_nonneg; lia|exact C]. }
  assert (X2 : f * (v - r) * (v0 + 1) <= (q + 1) * (base - 1) * (v0 + 1)) by (apply Z.mul_le_mono_nonneg_r; [lia|exact S4]).
  replace ((q + 1) * (base - 1) * (v0 + 1)) with ((q + 1) * (v0 + 1) * (base - 1)) in X2 by ring. assert (X3 : (q + 1) * (v0 + 1) * (base - 1) <= 38 * (base - 1)) by (apply Z.mul_le_mono_nonneg_r; [discriminate|exact K2]).
  clear - X1 X2 X3 V0 BB. rewrite BB in *. lia.
Qed.

Lemma rem_abs_mod x y : y <> 0 -> Z.abs (Z.rem x y) = Z.abs x mod Z.abs y.
Proof. intros H. rewrite <- Z.rem_abs by exact H. apply Z.rem_mod_nonneg; lia. Qed.

(** Both are right unless the remainder is less than 40 below the divisor. *)
Theorem C100_simple_test : forall x y, is_i64 x \/ is_u64 x -> y <> 0 -> 40 <= Z.abs y - Z.abs (Z.rem x y) -> quotient_found x y.
Proof.
  intros x y Hx Hy H L V. destruct (Z.eq_dec (shortened_quotient x y) (Z.abs x / Z.abs y)) as [|N]; [assumption|exfalso].
  rewrite rem_abs_mod in H by exact Hy. assert (Hx' : 0 <= Z.abs x < 19 * 10 ^ 18) by (unfold is_i64, is_u64 in Hx; lia).
  pose proof (wrong_guess_near (Z.abs x) (Z.abs y) Hx' L V) as W. unfold shortened_quotient in *. rewrite !Z.abs_involutive in W. specialize (W N). lia.
Qed.
Print Assumptions C100_simple_test.

Lemma computed_iff x y : Z.abs x < 19 * 10 ^ 18 -> y <> 0 -> (remainder_computed x y = Z.rem x y <-> quotient_found x y).
Proof.
  intros Hx Hy. unfold remainder_computed, quotient_found. destruct (Z.leb_spec (10 ^ 18) (Z.abs y)) as [L|L]; [|cbn [andb]; split; [intros _ X; lia|reflexivity]].
  destruct (Z.leb_spec (Z.abs y) (Z.abs x)) as [V|V]; [|cbn [andb]; split; [intros _ _ X; lia|reflexivity]]. cbn [andb].
  destruct (Z.eqb_spec (shortened_quotient x y) (Z.abs x / Z.abs y)) as [E|N]; cbn [negb]; [split; auto|]. split; [|intros X; exfalso; apply N, X; assumption].
  intros X. exfalso. pose proof (wrong_guess_near (Z.abs x) (Z.abs y) ltac:(lia) L V) as W. unfold shortened_quotient in *. rewrite !Z.abs_involutive in W. specialize (W N).
  rewrite <- rem_abs_mod in W by exact Hy. pose proof (Z.rem_bound_abs x y Hy) as B.
  assert (A : Z.abs (Z.sgn x * (Z.abs y - Z.abs (Z.rem x y))) = Z.abs y - Z.abs (Z.rem x y)). { rewrite Z.abs_mul. assert (Sx : Z.abs (Z.sgn x) = 1) by (destruct x; [exfalso; clear - V Hy; change (Z.abs 0) with 0 in V; destruct y; [apply Hy; reflexivity|clear Hy; apply V; reflexivity|clear Hy; apply V; reflexivity]|reflexivity|reflexivity]). rewrite Sx, Z.mul_1_l. apply Z.abs_eq. clear - B. apply Z.le_0_sub, Z.lt_le_incl, B. }
  rewrite X in A. clear - A W L. set (r := Z.abs (Z.rem x y)) in *. set (v := Z.abs y) in *. clearbody r v. lia.
Qed.

Lemma prints m q x y f : 0 <= f <= 9 -> y <> 0 -> wf q -> (x <> 0 -> frac_digits q = 9) -> (value q == truncate_at (inject_Z x / inject_Z y) (frac_digits q))%Q ->
  exists n, to_string m q f = Ret (numeral_bytes n) /\ canonical n /\ zlength (n_frac n) = f /\ (numeral_value n == truncate_at (inject_Z x / inject_Z y) f)%Q.
Proof.
  intros Hf Y0 W F V. destruct (C09_to_string_truncates m q f W (proj1 Hf)) as (n & E1 & E2 & _ & E3 & E4). exists n. split; [exact E1|]. split; [exact E2|]. split; [exact E3|].
  rewrite E4. apply printed_quotient; assumption.
Qed.

(** A release build then returns the quotient, cut off after nine fractional
    digits, and the remainder; without that the remainder is wrong. *)
Theorem C100_i64_release : forall x y, is_i64 x -> is_i64 y -> y <> 0 ->
  exists a b r, from_i64 Release x = Ret a /\ from_i64 Release y = Ret b /\ rem_to Release a b zero = Ret (Ok tt, r) /\
    (as_i64 Release r = Ret (Ok (Z.rem x y)) <-> quotient_found x y) /\
    (quotient_found x y -> exists q, div_to Release a b zero 4 = Ret (Ok tt, q) /\
      (forall m f, 0 <= f <= 9 -> exists n, to_string m q f = Ret (numeral_bytes n) /\ canonical n /\ zlength (n_frac n) = f /\ (numeral_value n == truncate_at (inject_Z x / inject_Z y) f)%Q) /\
      (forall m, as_i64 m q = Ret (checked_i64 (round_away (inject_Z x / inject_Z y))))).
Proof.
  intros x y Hx Hy Y0. destruct (C94_i64_remainders Release x y Hx Hy Y0) as (a & b & Ea & Eb & R1 & R2). destruct (R2 eq_refl) as (r & Er). destruct (R1 _ _ Er) as (_ & Ar).
  exists a, b, r. split; [exact Ea|]. split; [exact Eb|]. split; [exact Er|]. split.
  - rewrite Ar, <- (computed_iff x y) by (try exact Y0; unfold is_i64 in Hx; lia). split; [congruence|intros ->; reflexivity].
  - intros QF. destruct (i64_machine Release x Hx) as (a' & Ea' & A), (i64_machine Release y Hy) as (b' & Eb' & B).
    assert (a' = a) as -> by congruence. assert (b' = b) as -> by congruence.
    destruct (machine_release_div a b x y A B Y0 ltac:(unfold is_i64 in Hx; lia) ltac:(unfold is_i64 in Hy; lia) QF) as (q & E & W & C & NZ & F & V). exists q. split; [exact E|].
    split; [intros m f Hf; apply prints; assumption|]. intros m. apply i64_back; assumption.
Qed.
Print Assumptions C100_i64_release.
Theorem C100_u64_release : forall x y, is_u64 x -> is_u64 y -> y <> 0 ->
  exists a b r, from_u64 Release x = Ret a /\ from_u64 Release y = Ret b /\ rem_to Release a b zero = Ret (Ok tt, r) /\
    (as_u64 Release r = Ret (Ok (x mod y)) <-> quotient_found x y) /\
    (quotient_found x y -> exists q, div_to Release a b zero 4 = Ret (Ok tt, q) /\
      (forall m f, 0 <= f <= 9 -> exists n, to_string m q f = Ret (numeral_bytes n) /\ canonical n /\ zlength (n_frac n) = f /\ (numeral_value n == truncate_at (inject_Z x / inject_Z y) f)%Q) /\
      (forall m, as_u64 m q = Ret (Ok (round_away (inject_Z x / inject_Z y))))).
Proof.
  intros x y Hx Hy Y0. destruct (C94_u64_remainders Release x y Hx Hy Y0) as (a & b & Ea & Eb & R1 & R2). destruct (R2 eq_refl) as (r & Er). destruct (R1 _ _ Er) as (_ & Ar).
  exists a, b, r. split; [exact Ea|]. split; [exact Eb|]. split; [exact Er|]. split.
  - rewrite Ar, <- (computed_iff x y) by (try exact Y0; unfold is_u64 in Hx; lia). rewrite Z.rem_mod_nonneg by (unfold is_u64 in *; lia). split; [congruence|intros ->; reflexivity].
  - intros QF. destruct (u64_machine Release x Hx) as (a' & Ea' & A), (u64_machine Release y Hy) as (b' & Eb' & B).
    assert (a' = a) as -> by congruence. assert (b' = b) as -> by congruence.
    destruct (machine_release_div a b x y A B Y0 ltac:(unfold is_u64 in Hx; lia) ltac:(unfold is_u64 in Hy; lia) QF) as (q & E & W & C & NZ & F & V). exists q. split; [exact E|].
    split; [intros m f Hf; apply prints; assumption|]. intros m. apply u64_back; assumption.
Qed.
Print Assumptions C100_u64_release.

Example C100_example : ~ quotient_found 3000000000000000002 1000000000000000001 /\ quotient_found 9223372036854775807 (-1234567890123456789) /\ quotient_found 2000000000000000041 2000000000000000040 /\
  40 <= Z.abs (-1234567890123456789) - Z.abs (Z.rem 9223372036854775807 (-1234567890123456789)) /\ is_u64 18446744073709551615 /\
  (exists a b q, from_u64 Release 18446744073709551615 = Ret a /\ from_u64 Release 1000000000000000001 = Ret b /\ div_to Release a b zero 4 = Ret (Ok tt, q) /\ to_string Release q (-1) = Ret (bytes "18.446744073")).
Proof.
  split; [intros H; vm_compute in H; specialize (H ltac:(discriminate) ltac:(discriminate)); discriminate H|].
  split; [intros _ _; vm_compute; reflexivity|]. split; [intros _ _; vm_compute; reflexivity|]. split; [vm_compute; discriminate|]. split; [unfold is_u64; lia|].
  do 3 eexists. split; [vm_compute; reflexivity|]. split; [vm_compute; reflexivity|]. split; [vm_compute; reflexivity|]. vm_compute. reflexivity.
Qed.
