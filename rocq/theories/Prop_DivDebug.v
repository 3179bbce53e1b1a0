(** * Properties: exactly which quotients a debug build returns (C96).
    [first_guesses_fit] and [quotient_guesses_fit] are in [Spec_Guess], [division_fits] in [Spec_Div]. *)
From Coq Require Import ZArith Zquot List Bool String Lia QArith Qabs Qround Lqa.
From Verif Require Import Rust Model_Base Model_Decimal Model_Arith Model_Serde Spec Spec_Div Spec_Guess Lib QLib Sign Basics AddSub Cmp DivBasics Div3 Div5 DivQ DivFit DivG2 DivDebug Laws MulQ RoundQ RemG Rem4 Rem7
  Prop_Print Prop_Div Prop_Robust Prop_Rem Prop_Exact Prop_Integers Prop_Near Witness.
Import ListNotations.
Open Scope Z_scope.

Lemma exp_unique a b lnz rnz e : wf a -> wf b -> lead2 a b lnz rnz -> 0 <= e -> (Qabs (value a / value b) < pow10 (9 * e))%Q ->
  (0 < e -> (pow10 (9 * (e - 1)) <= Qabs (value a / value b))%Q) -> e = Z.max 0 (exp_of a b lnz rnz).
Proof.
  intros Ha Hb L He U V. destruct (exp_bounds a b lnz rnz Ha Hb L) as [B1 B2].
  assert (M : forall i j, (pow10 (9 * i) < pow10 (9 * j))%Q -> i < j).
  { intros i j H. destruct (Z.lt_ge_cases i j) as [|C]; [assumption|exfalso]. apply (Qlt_not_le _ _ H). apply pow10_mono. lia. }
  set (x := exp_of a b lnz rnz) in *. clearbody x. assert (x - 1 < e) by (apply M; eapply Qle_lt_trans; [exact B1|exact U]).
  destruct (Z.eq_dec e 0) as [->|E0]; [lia|]. assert (e - 1 < x) by (apply M; eapply Qle_lt_trans; [apply V; lia|exact B2]). lia.
Qed.

(** If the digits of the divisor lie within two units (18 digits if it is an integer, ten wherever
    the point is; such a quotient is always the right one, C34), a debug build
    returns exactly if the quotient fits (as a release build does, C69) and every first guess
    is a unit. *)
Theorem C96_debug_returns_iff : forall a b res incr, wf a -> wf b -> ~ (value b == 0)%Q -> significant_units 2 b -> 0 <= incr -> sane_request a b incr ->
  ((exists o, div_to Debug a b res incr = Ret o) <-> division_fits a b incr /\ first_guesses_fit a b incr).
Proof.
  intros a b res incr Ha Hb Vb S2 Hi Sn. destruct (Qeq_dec (value a) 0) as [Va|Va].
  { assert (Z : exists o, div_to Debug a b res incr = Ret o) by (eexists; apply (div_to_zero Debug a b res incr Ha Hb Va Vb)). split; [intros _|intros _; exact Z]. split.
    - intros p q L _. destruct (no_leading a p Va L).
    - intros e _ _ _ F len j Hl By Hj H. exfalso. rewrite value_zero_iff in Va by exact Ha. rewrite Va, Z.mul_0_l in H. pose proof (pow_base_pos j Hj). pose proof (pow_base_pos (len - 1) ltac:(lia)). apply Z.le_ngt in H. apply H. apply Z.mul_pos_pos; lia. }
  pose proof Va as Na. pose proof Vb as Nb. rewrite value_zero_iff in Na, Nb by assumption.
  pose proof (wf_counts a Ha) as CA. pose proof (wf_counts b Hb) as CB.
  destruct (div_abs_debug a b res incr Ha Hb Na Nb S2 Hi Sn) as (lnz & rnz & L & I). rewrite (fits_iff a b incr lnz rnz Ha Hb Nb L).
  assert (EF : forall e, e = Z.max 0 (exp_of a b lnz rnz) -> Z.min (9 - e) (asked_units a b incr) = qfu a b incr lnz rnz).
  { intros e ->. unfold asked_units, qfu, qiu. fold (exp_of a b lnz rnz). clear. lia. }
  assert (GG : first_guesses_fit a b incr <-> (exp_of a b lnz rnz <= 9 -> guesses_small (magnitude a * base ^ (qfu a b incr lnz rnz + fu b)) (magnitude b * base ^ fu a))).
  { split.
    - intros G O. destruct (exp_bounds a b lnz rnz Ha Hb L) as [B1 B2]. rewrite <- (EF _ eq_refl). apply (G (Z.max 0 (exp_of a b lnz rnz))); [clear - O; lia| |].
      + eapply Qlt_le_trans; [exact B2|]. apply pow10_mono. clear. lia.
      + intros P. replace (Z.max 0 (exp_of a b lnz rnz)) with (exp_of a b lnz rnz) by (clear - P; lia). exact B1.
    - intros G e He U V. cbv zeta. assert (EE := exp_unique a b lnz rnz e Ha Hb L (proj1 He) U V). rewrite (EF e EE). apply G. clear - EE He. lia. }
  rewrite GG, and_assoc, <- I. unfold div_to. cbv zeta. rewrite as_isize_id by (unfold sane_request in Sn; clear - Sn CA CB Hi; lia). split.
  - intros [o H]. apply bind_inv in H. destruct H as (o' & E & _). eauto.
  - intros [[rs d] E]. rewrite E. mret. cbn [finish_sign]. destruct rs; eauto.
Qed.
Print Assumptions C96_debug_returns_iff.

Lemma first_guess_shift x y len j : 1 <= len -> 0 <= j -> 0 < y -> first_guess (x * base) y len (j + 1) = first_guess x y len j.
Proof.
  intros Hl Hj Hy. unfold first_guess. cbv zeta. set (f := norm_factor y len). f_equal.
  assert (R : rest (x * base) y (j + 1) = rest x y j * base).
  { unfold rest. replace (j + 1 + 1) with (1 + (j + 1)) by lia. rewrite (base_pow_split 1), Z.pow_1_r by lia. replace (y * (base * base ^ (j + 1))) with (y * base ^ (j + 1) * base) by ring.
    apply Z.mul_mod_distr_r; [|discriminate]. pose proof (pow_base_pos (j + 1) ltac:(lia)). apply Z.neq_mul_0. lia. }
  rewrite R. replace (j + 1 + len - 1) with (1 + (j + len - 1)) by lia. rewrite (base_pow_split 1), Z.pow_1_r, Z.mul_assoc, (Z.mul_comm base) by lia.
  apply Z.div_mul_cancel_r; [|discriminate]. apply Z.pow_nonzero; [discriminate|lia].
Qed.

Lemma machine_quotient_guesses u v : 0 <= u < 10 ^ 20 -> 0 < v < 10 ^ 18 -> (guesses_small (u * base) v <-> quotient_guesses_fit u v).
Proof.
  intros [U0 X] [V0 VV]. unfold quotient_guesses_fit. rewrite !Z.abs_eq by lia. 
  change (10 ^ 9) with base. change (10 ^ 18) with (base ^ 2) in *. change (10 ^ 20) with (100 * base ^ 2) in X. assert (B2 : base ^ 2 = base * base) by reflexivity. assert (BB : base = 1000000000) by reflexivity.
  destruct (Z.lt_ge_cases v base) as [C1|C1].
  - split; [intros _ [H _]; lia|]. intros _. apply (one_unit_small _ _ v 0); [lia|lia|rewrite Z.pow_0_r; ring].
  - assert (L2 : base ^ (2 - 1) <= v < base ^ 2) by (change (2 - 1) with 1; rewrite Z.pow_1_r; lia).
    assert (VB : 1 <= v / base < base) by (clear - C1 VV B2 BB; split; [apply Z.div_le_lower_bound; lia|apply Z.div_lt_upper_bound; lia]).
    pose proof (nf_facts (v / base) VB) as NF. cbv zeta in NF. destruct NF as (N2 & N3 & N4).
    assert (NFE : norm_factor v 2 = base / (v / base + 1)) by (unfold norm_factor; change (2 - 1) with 1; rewrite Z.pow_1_r; reflexivity).
    cbv zeta. set (f := base / (v / base + 1)) in *. clearbody f.
    assert (PD : base <= 3 * (f * v / base)). { assert (f * (v / base) <= f * v / base); [|clear - H N4; lia]. apply Z.div_le_lower_bound; [clear - BB; lia|]. rewrite Z.mul_assoc, (Z.mul_comm base f), <- Z.mul_assoc. apply Z.mul_le_mono_nonneg_l; [clear - N2; lia|]. apply Z.mul_div_le. clear - BB; lia. }
    assert (DE : f * v / base ^ (2 - 1) = f * v / base) by (change (2 - 1) with 1; rewrite Z.pow_1_r; reflexivity).
    assert (E0 : first_guess (u * base) v 2 0 = f * (u mod v) / (f * v / base)).
    { unfold first_guess. cbv zeta. rewrite NFE, DE. f_equal. change (0 + 2 - 1) with 1. unfold rest. change (0 + 1) with 1. rewrite !Z.pow_1_r. rewrite Z.mul_mod_distr_r by (clear - V0 BB; lia). rewrite Z.mul_assoc. apply Z.div_mul. discriminate. }
    assert (E1 : first_guess (u * base) v 2 1 = f * (u mod (v * base)) / base / (f * v / base)).
    { change 1 with (0 + 1). rewrite first_guess_shift by (clear - V0; lia). unfold first_guess. cbv zeta. rewrite NFE, DE. change (0 + 2 - 1) with 1. unfold rest. change (0 + 1) with 1. rewrite !Z.pow_1_r. reflexivity. }
    set (d := f * v / base) in *.
    assert (FD : f * v < base * Z.succ d) by (apply Z.mul_succ_div_gt; clear - BB; lia). assert (D0 : 0 < d) by (clear - PD BB; lia).
    rewrite <- E0, <- E1. split.
    + intros G _. split.
      * destruct (Z.lt_ge_cases u v) as [UV|UV]; [|apply G; [lia|exact L2|lia|rewrite Z.pow_1_r; apply Z.mul_le_mono_nonneg_r; [clear - BB|]; lia]].
        rewrite E1. rewrite Z.mod_small by (split; [exact U0|]; clear - UV V0 BB; rewrite BB; lia). apply Z.div_lt_upper_bound; [exact D0|]. apply Z.div_lt_upper_bound; [clear - BB; lia|].
        apply Z.le_lt_trans with (f * v); [apply Z.mul_le_mono_nonneg_l; [clear - N2|clear - UV]; lia|]. apply Z.lt_le_trans with (1 := FD). clear - D0 BB. rewrite BB. lia.
      * destruct (Z.lt_ge_cases (u * base) v) as [UV|UV]; [|apply G; [lia|exact L2|lia|rewrite Z.pow_0_r; clear - UV; lia]].
        rewrite E0. rewrite Z.mod_small by (clear - UV U0 BB; lia). apply Z.div_lt_upper_bound; [exact D0|].
        assert (FU : f * (u * base) < f * v) by (apply Z.mul_lt_mono_pos_l; [clear - N2; lia|exact UV]). rewrite Z.mul_assoc in FU. set (fu0 := f * u) in *. clearbody fu0. clear - FU FD D0 BB. rewrite BB in *. lia.
    + intros H len j Hl By Hj G. assert (EL : len = 2) by (apply (len_unique v); try assumption; lia). subst len.
      destruct (H (conj C1 VV)) as [G1 G0]. destruct (Z.eq_dec j 0) as [->|J0]; [exact G0|]. destruct (Z.eq_dec j 1) as [->|J1]; [exact G1|].
      destruct (Z.eq_dec j 2) as [->|J2].
      * change 2 with (1 + 1) at 2. rewrite first_guess_shift by (clear - V0; lia). unfold first_guess. cbv zeta. rewrite NFE, DE. fold d. change (1 + 2 - 1) with 2. unfold rest. change (1 + 1) with 2.
        rewrite Z.mod_small.
        -- apply Z.div_lt_upper_bound; [exact D0|]. apply Z.div_lt_upper_bound; [rewrite B2, BB; reflexivity|].
           apply Z.lt_le_trans with (f * (100 * base ^ 2)); [apply Z.mul_lt_mono_pos_l; [clear - N2; lia|exact X]|]. replace (f * (100 * base ^ 2)) with (base ^ 2 * (100 * f)) by ring.
           apply Z.mul_le_mono_nonneg_l; [rewrite B2, BB; discriminate|]. clear - N2 PD BB. rewrite BB in *. lia.
        -- split; [exact U0|]. apply Z.lt_le_trans with (1 := X). apply Z.mul_le_mono_nonneg_r; [rewrite B2, BB; discriminate|]. clear - C1 BB. rewrite BB in C1. lia.
      * exfalso. assert (JJ : 3 <= j) by lia. clear - G JJ C1 V0 X B2 BB. assert (G1 : v * base ^ 3 <= v * base ^ j) by (apply Z.mul_le_mono_nonneg_l; [lia|]; apply Z.pow_le_mono_r; [reflexivity|exact JJ]).
        assert (G2 : base * base ^ 3 <= v * base ^ 3) by (apply Z.mul_le_mono_nonneg_r; [discriminate|exact C1]). set (w := v * base ^ j) in *. clearbody w. set (w2 := v * base ^ 3) in *. clearbody w2.
        change (base * base ^ 3) with (10 ^ 36) in G2. rewrite B2, BB in *. lia.
Qed.
Lemma machine_div_debug a b x y : machine a x -> machine b y -> 0 < Z.abs y < 10 ^ 18 -> Z.abs x < 10 ^ 20 -> ((exists o, div_to Debug a b zero 4 = Ret o) <-> quotient_guesses_fit x y).
Proof.
  intros A B Hy Hx. assert (Y0 : y <> 0) by lia. destruct (machine_units a x A) as (UA & FA & MA), (machine_units b y B) as (UB & FB & MB). pose proof (machine_nonzero b y B Y0) as Nb.
  pose proof A as [(Wa & _) Va F0a _ _]. pose proof B as [(Wb & _) Vb F0b _ _].
  assert (Rm : div_room a b 4) by (apply C34_room; try assumption; lia). pose proof (room_sane a b 4 Rm) as Sn.
  rewrite (C96_debug_returns_iff a b zero 4 Wa Wb Nb (machine_two b y B Hy) ltac:(lia) Sn).
  assert (DF : division_fits a b 4).
  { destruct (Qeq_dec (value a) 0) as [V0|V0]; [intros p q L _; destruct (no_leading a p V0 L)|]. apply fits_simple; try assumption. lia. }
  assert (QF : quotient_guesses_fit x y <-> quotient_guesses_fit (Z.abs x) (Z.abs y)) by (unfold quotient_guesses_fit; rewrite !Z.abs_involutive; reflexivity).
  rewrite QF, <- (machine_quotient_guesses (Z.abs x) (Z.abs y) ltac:(lia) Hy).
  assert (XA : (Qabs (value a / value b) < pow10 (9 * 3))%Q).
  { assert (P : forall z, (Qabs (inject_Z z) == inject_Z (Z.abs z))%Q) by (intros z; reflexivity). assert (Ny : ~ (inject_Z y == 0)%Q) by (intros X; unfold Qeq in X; cbn in X; lia).
    assert (I : (Qabs (inject_Z x / inject_Z y) * inject_Z (Z.abs y) == inject_Z (Z.abs x))%Q) by (rewrite <- !P, <- Qabs_Qmult; apply Qabs_wd; field; exact Ny).
    rewrite Va, Vb. change (pow10 (9 * 3)) with (inject_Z (10 ^ 27)). assert (Y1 : (1 <= inject_Z (Z.abs y))%Q) by (change 1%Q with (inject_Z 1); rewrite <- Zle_Qle; lia).
    assert (X1 : (inject_Z (Z.abs x) < inject_Z (10 ^ 27))%Q) by (rewrite <- Zlt_Qlt; lia). rewrite <- I in X1. set (q := Qabs (inject_Z x / inject_Z y)) in *. assert (Q0 : (0 <= q)%Q) by apply Qabs_nonneg.
    clearbody q. apply Qle_lt_trans with (2 := X1). rewrite <- (Qmult_1_r q) at 1. rewrite (Qmult_comm q 1), (Qmult_comm q). apply Qmult_le_compat_r; assumption. }
  assert (AU : asked_units a b 4 = 1) by (unfold asked_units; rewrite FA, FB, F0a, F0b; reflexivity).
  split.
  - intros [_ G].
    assert (E : exists e, 0 <= e <= 3 /\ (Qabs (value a / value b) < pow10 (9 * e))%Q /\ (0 < e -> (pow10 (9 * (e - 1)) <= Qabs (value a / value b))%Q)).
    { destruct (Qlt_le_dec (Qabs (value a / value b)) (pow10 (9 * 0))) as [L0|L0]; [exists 0; split; [lia|]; split; [exact L0|lia]|].
      destruct (Qlt_le_dec (Qabs (value a / value b)) (pow10 (9 * 1))) as [L1|L1]; [exists 1; split; [lia|]; split; [exact L1|intros _; exact L0]|].
      destruct (Qlt_le_dec (Qabs (value a / value b)) (pow10 (9 * 2))) as [L2|L2]; [exists 2; split; [lia|]; split; [exact L2|intros _; exact L1]|].
      exists 3. split; [lia|]. split; [exact XA|intros _; exact L2]. }
    destruct E as (e & He & E1 & E2). specialize (G e ltac:(lia) E1 E2). cbv zeta in G. rewrite AU, FA, FB, MA, MB in G. replace (Z.min (9 - e) 1) with 1 in G by (clear - He; lia).
    change (base ^ (1 + 0)) with base in G. rewrite Z.pow_0_r, Z.mul_1_r in G. exact G.
  - intros G. split; [exact DF|]. intros e He E1 E2. cbv zeta. rewrite AU, FA, FB, MA, MB.
    assert (E3 : e <= 3). { destruct (Z.le_gt_cases e 3) as [|C]; [assumption|exfalso]. apply (Qlt_not_le _ _ XA). eapply Qle_trans; [|apply E2; lia]. apply pow10_mono. lia. }
    replace (Z.min (9 - e) 1) with 1 by (clear - E3; lia). change (base ^ (1 + 0)) with base. rewrite Z.pow_0_r, Z.mul_1_r. exact G.
Qed.

(** Machine integers divided by up to 18 digits. *)
Theorem C96_i64_debug : forall x y, is_i64 x -> is_i64 y -> 0 < Z.abs y < 10 ^ 18 ->
  exists a b, from_i64 Debug x = Ret a /\ from_i64 Debug y = Ret b /\ ((exists o, div_to Debug a b zero 4 = Ret o) <-> quotient_guesses_fit x y).
Proof.
  intros x y Hx Hy Y0. destruct (i64_machine Debug x Hx) as (a & Ea & A), (i64_machine Debug y Hy) as (b & Eb & B). exists a, b. split; [exact Ea|]. split; [exact Eb|].
  apply machine_div_debug; try assumption. unfold is_i64 in Hx. lia.
Qed.
Print Assumptions C96_i64_debug.
Theorem C96_u64_debug : forall x y, is_u64 x -> is_u64 y -> 0 < y < 10 ^ 18 ->
  exists a b, from_u64 Debug x = Ret a /\ from_u64 Debug y = Ret b /\ ((exists o, div_to Debug a b zero 4 = Ret o) <-> quotient_guesses_fit x y).
Proof.
  intros x y Hx Hy Y0. destruct (u64_machine Debug x Hx) as (a & Ea & A), (u64_machine Debug y Hy) as (b & Eb & B). exists a, b. split; [exact Ea|]. split; [exact Eb|].
  apply machine_div_debug; try assumption; [lia|]. unfold is_u64 in Hx. lia.
Qed.
Print Assumptions C96_u64_debug.

Example C96_example : ~ quotient_guesses_fit 1000000000 1000000001 /\ ~ quotient_guesses_fit 1000000000999999999 1000000001 /\ quotient_guesses_fit 9223372036854775807 7000000003 /\ quotient_guesses_fit 5 (-3) /\
  (exists a b, from_i64 Debug 1000000000 = Ret a /\ from_i64 Debug 1000000001 = Ret b /\ div_to Debug a b zero 4 = Panic PAssert) /\
  (let a := dec "1" in let b := dec "1.000000001" in wf a /\ wf b /\ ~ (value b == 0)%Q /\ significant_units 2 b /\ sane_request a b 4 /\ div_to Debug a b zero 4 = Panic PAssert) /\
  (let a := dec "1.5" in let b := dec "1.000000001" in wf a /\ wf b /\ ~ (value b == 0)%Q /\ significant_units 2 b /\ sane_request a b 4 /\ exists o, div_to Debug a b zero 4 = Ret o).
Proof.
  split; [intros H; specialize (H ltac:(vm_compute; split; [discriminate|reflexivity])); cbv zeta in H; destruct H as [_ H]; vm_compute in H; discriminate H|].
  split; [intros H; specialize (H ltac:(vm_compute; split; [discriminate|reflexivity])); cbv zeta in H; destruct H as [H _]; vm_compute in H; discriminate H|].
  split; [intros _; split; vm_compute; reflexivity|]. split; [intros [H _]; vm_compute in H; exfalso; apply H; reflexivity|].
  split; [do 2 eexists; split; [vm_compute; reflexivity|]; split; [vm_compute; reflexivity|]; vm_compute; reflexivity|].
  split; intros a b; (assert (W : wf a /\ wf b /\ ~ (value b == 0)%Q) by (subst a b; hyps)); destruct W as (Wa & Wb & Nb); (split; [exact Wa|]); (split; [exact Wb|]); (split; [exact Nb|]); (split; [sigu 1000000001 0|]);
    (split; [unfold sane_request; vm_compute; discriminate|]); [vm_compute; reflexivity|eexists; vm_compute; reflexivity].
Qed.
