(** * Rational-number lemmas: powers of ten, rounding, truncation. *)
From Coq Require Import ZArith List Bool Lia QArith Qabs Qround Qpower Lqa.
From Coq Require Import ZifyBool ZifyNat.
From Verif Require Import Model_Base Spec Lib AddSub.
Open Scope Z_scope.

Definition ten_nz : ~ (inject_Z 10 == 0)%Q.
Proof. discriminate. Qed.

Lemma pow10_add a b : (pow10 (a + b) == pow10 a * pow10 b)%Q.
Proof. apply Qpower_plus, ten_nz. Qed.
Lemma pow10_0 : (pow10 0 == 1)%Q.
Proof. reflexivity. Qed.
Lemma pow10_nonneg n : 0 <= n -> (pow10 n == inject_Z (10 ^ n))%Q.
Proof. intros H. unfold pow10. symmetry. apply Zpower_Qpower, H. Qed.
Lemma pow10_inv n : (pow10 (- n) * pow10 n == 1)%Q.
Proof. rewrite <- pow10_add. replace (- n + n) with 0 by lia. reflexivity. Qed.
Lemma pow10_pos n : (0 < pow10 n)%Q.
Proof. apply Qpower_0_lt. reflexivity. Qed.
Lemma p10_pos n : 0 <= n -> 0 < 10 ^ n.
Proof. intros. apply Z.pow_pos_nonneg; lia. Qed.

(** a / 10^K *)
Lemma div_pow10 M K : 0 <= K -> (inject_Z M * pow10 (- K) == M # Z.to_pos (10 ^ K))%Q.
Proof.
  intros HK. pose proof (p10_pos K HK).
  assert (E : (pow10 (- K) == 1 # Z.to_pos (10 ^ K))%Q).
  { apply (Qmult_inj_r _ _ (pow10 K)); [intros E; pose proof (pow10_pos K); rewrite E in H0; discriminate|].
    rewrite pow10_inv, pow10_nonneg by assumption. unfold Qeq, inject_Z, Qmult. cbn [Qnum Qden].
    rewrite Pos2Z.inj_mul, Z2Pos.id by assumption. ring. }
  rewrite E. unfold Qeq, inject_Z, Qmult. cbn [Qnum Qden]. rewrite Pos2Z.inj_mul. ring.
Qed.

Definition smag (d : fd) : Z := if neg d then - magnitude d else magnitude d.

Lemma value_smag d : wf d -> (value d == inject_Z (smag d) * pow10 (- (9 * fu d)))%Q.
Proof.
  intros H. pose proof (wf_counts d H). rewrite div_pow10 by lia. unfold value, smag.
  rewrite Z.pow_mul_r by lia. reflexivity.
Qed.

Lemma Qfloor_make n p : Qfloor (n # p) = n / Zpos p.
Proof. reflexivity. Qed.

Definition half_up (M K : Z) : Z := (M + 5 * 10 ^ (K - 1)) / 10 ^ K.

Lemma floor_half_up M K : 1 <= K -> Qfloor (inject_Z M * pow10 (- K) + (1 # 2)) = half_up M K.
Proof.
  intros HK. pose proof (p10_pos K ltac:(lia)). pose proof (p10_pos (K - 1) ltac:(lia)).
  assert (E10 : 10 ^ K = 10 * 10 ^ (K - 1)) by (rewrite <- Z.pow_succ_r by lia; f_equal; lia).
  assert (E : (inject_Z M * pow10 (- K) + (1 # 2) == (M + 5 * 10 ^ (K - 1)) # Z.to_pos (10 ^ K))%Q).
  { rewrite div_pow10 by lia. unfold Qeq, Qplus. cbn [Qnum Qden]. rewrite !Pos2Z.inj_mul, !Z2Pos.id by lia. rewrite E10. ring. }
  rewrite (Qfloor_comp _ _ E). rewrite Qfloor_make, Z2Pos.id by lia. reflexivity.
Qed.
Lemma floor_trunc M K : 0 <= K -> Qfloor (inject_Z M * pow10 (- K)) = M / 10 ^ K.
Proof.
  intros HK. pose proof (p10_pos K ltac:(lia)). rewrite (Qfloor_comp _ _ (div_pow10 M K HK)).
  rewrite Qfloor_make, Z2Pos.id by lia. reflexivity.
Qed.

Lemma Qle_bool_0 M K : Qle_bool 0 (inject_Z M * pow10 K) = (0 <=? M).
Proof.
  pose proof (pow10_pos K) as P. apply eq_true_iff_eq. rewrite Qle_bool_iff, Z.leb_le.
  rewrite Zle_Qle. change (inject_Z 0) with 0%Q. split; intros H.
  - apply Qnot_lt_le. intros G. apply Qle_not_lt in H. apply H. nra.
  - nra.
Qed.

Lemma round_away_comp p q : (p == q)%Q -> round_away p = round_away q.
Proof.
  intros E. unfold round_away. 
  assert (B : Qle_bool 0 p = Qle_bool 0 q) by (apply eq_true_iff_eq; rewrite !Qle_bool_iff, E; tauto).
  rewrite B. destruct (Qle_bool 0 q); [|f_equal]; apply Qfloor_comp; rewrite E; reflexivity.
Qed.
Lemma truncate_comp p q : (p == q)%Q -> truncate p = truncate q.
Proof.
  intros E. unfold truncate. 
  assert (B : Qle_bool 0 p = Qle_bool 0 q) by (apply eq_true_iff_eq; rewrite !Qle_bool_iff, E; tauto).
  rewrite B. destruct (Qle_bool 0 q); [|f_equal]; apply Qfloor_comp; rewrite E; reflexivity.
Qed.

Lemma round_away_pow10 s M K : 0 <= M -> 1 <= K ->
  round_away (inject_Z (if s : bool then - M else M) * pow10 (- K)) = if s then - half_up M K else half_up M K.
Proof.
  intros HM HK. unfold round_away. rewrite Qle_bool_0.
  destruct s.
  - destruct (Z.leb_spec 0 (- M)).
    + assert (M = 0) by lia. subst M. rewrite floor_half_up by assumption. unfold half_up.
      pose proof (p10_pos (K - 1) ltac:(lia)).
      assert (E10 : 10 ^ K = 10 * 10 ^ (K - 1)) by (rewrite <- Z.pow_succ_r by lia; f_equal; lia).
      rewrite Z.div_small; rewrite ?Z.div_small; lia.
    + f_equal. rewrite <- floor_half_up by assumption. apply Qfloor_comp. rewrite inject_Z_opp. ring.
  - destruct (Z.leb_spec 0 M); [|lia]. apply floor_half_up. assumption.
Qed.
Lemma truncate_pow10 s M K : 0 <= M -> 0 <= K ->
  truncate (inject_Z (if s : bool then - M else M) * pow10 (- K)) = if s then - (M / 10 ^ K) else M / 10 ^ K.
Proof.
  intros HM HK. pose proof (p10_pos K HK). unfold truncate. rewrite Qle_bool_0.
  destruct s.
  - destruct (Z.leb_spec 0 (- M)).
    + assert (M = 0) by lia. subst M. rewrite floor_trunc by assumption. rewrite Z.div_small by lia. reflexivity.
    + f_equal. rewrite <- floor_trunc by assumption. apply Qfloor_comp. rewrite inject_Z_opp. ring.
  - destruct (Z.leb_spec 0 M); [|lia]. apply floor_trunc. assumption.
Qed.

(** integers round to themselves *)
Lemma round_away_Z z : round_away (inject_Z z) = z.
Proof.
  unfold round_away. destruct (Qle_bool 0 (inject_Z z)) eqn:E.
  - assert (G : (inject_Z z + (1 # 2) == 2 * z + 1 # 2)%Q) by (unfold Qeq, Qplus, inject_Z; cbn [Qnum Qden]; lia).
    rewrite (Qfloor_comp _ _ G), Qfloor_make. Z.div_mod_to_equations. lia.
  - assert (G : (- inject_Z z + (1 # 2) == 2 * (- z) + 1 # 2)%Q) by (unfold Qeq, Qplus, Qopp, inject_Z; cbn [Qnum Qden]; lia).
    rewrite (Qfloor_comp _ _ G), Qfloor_make. Z.div_mod_to_equations. lia.
Qed.
Lemma truncate_Z z : truncate (inject_Z z) = z.
Proof.
  unfold truncate. destruct (Qle_bool 0 (inject_Z z)) eqn:E.
  - apply Qfloor_Z.
  - rewrite <- inject_Z_opp, Qfloor_Z. lia.
Qed.

Lemma round_at_comp p q f : (p == q)%Q -> (round_at p f == round_at q f)%Q.
Proof.
  intros E. unfold round_at. rewrite (round_away_comp (p * pow10 f) (q * pow10 f)); [reflexivity|]. rewrite E. reflexivity.
Qed.
Lemma truncate_at_comp p q f : (p == q)%Q -> (truncate_at p f == truncate_at q f)%Q.
Proof.
  intros E. unfold truncate_at. rewrite (truncate_comp (p * pow10 f) (q * pow10 f)); [reflexivity|]. rewrite E. reflexivity.
Qed.

(** A decimal rounded at [f] digits. *)
Lemma round_at_value d f : wf d -> f < 9 * fu d ->
  (round_at (value d) f == inject_Z (if neg d then - half_up (magnitude d) (9 * fu d - f) else half_up (magnitude d) (9 * fu d - f)) * pow10 (- f))%Q.
Proof.
  intros H Hf. unfold round_at. rewrite <- round_away_pow10; [|apply magnitude_nonneg, H|lia].
  rewrite (round_away_comp (value d * pow10 f) (inject_Z (if neg d then - magnitude d else magnitude d) * pow10 (- (9 * fu d - f)))); [reflexivity|].
  rewrite (value_smag d H). replace (- (9 * fu d - f)) with (- (9 * fu d) + f) by lia. rewrite pow10_add. unfold smag. ring.
Qed.
Lemma truncate_at_value d f : wf d -> f <= 9 * fu d ->
  (truncate_at (value d) f == inject_Z (if neg d then - (magnitude d / 10 ^ (9 * fu d - f)) else magnitude d / 10 ^ (9 * fu d - f)) * pow10 (- f))%Q.
Proof.
  intros H Hf. unfold truncate_at. rewrite <- truncate_pow10; [|apply magnitude_nonneg, H|lia].
  rewrite (truncate_comp (value d * pow10 f) (inject_Z (if neg d then - magnitude d else magnitude d) * pow10 (- (9 * fu d - f)))); [reflexivity|].
  rewrite (value_smag d H). replace (- (9 * fu d - f)) with (- (9 * fu d) + f) by lia. rewrite pow10_add. unfold smag. ring.
Qed.

(** A decimal that already is a multiple of 10^-f. *)
Lemma round_at_multiple q f z : (q == inject_Z z * pow10 (- f))%Q -> (round_at q f == q)%Q.
Proof.
  intros E. unfold round_at. rewrite (round_away_comp _ (inject_Z z)), round_away_Z; [symmetry; exact E|].
  rewrite E. rewrite <- Qmult_assoc, pow10_inv. ring.
Qed.
Lemma truncate_at_multiple q f z : (q == inject_Z z * pow10 (- f))%Q -> (truncate_at q f == q)%Q.
Proof.
  intros E. unfold truncate_at. rewrite (truncate_comp _ (inject_Z z)), truncate_Z; [symmetry; exact E|].
  rewrite E. rewrite <- Qmult_assoc, pow10_inv. ring.
Qed.
Lemma nohidden_multiple d f : wf d -> nohidden d -> frac_digits d <= f -> exists z, (value d == inject_Z z * pow10 (- f))%Q.
Proof.
  intros H Hn Hf. pose proof (wf_counts d H). unfold nohidden in Hn.
  assert (Hfd : frac_digits d <= 9 * fu d) by (unfold fu, units_for; Z.div_mod_to_equations; lia).
  set (t := 9 * fu d - frac_digits d) in *.
  pose proof (p10_pos t ltac:(subst t; lia)) as Pt.
  exists ((if neg d then - (magnitude d / 10 ^ t) else magnitude d / 10 ^ t) * 10 ^ (f - frac_digits d)).
  rewrite (value_smag d H).
  assert (Es : smag d = (if neg d then - (magnitude d / 10 ^ t) else magnitude d / 10 ^ t) * 10 ^ t).
  { unfold smag. pose proof (Z.div_mod (magnitude d) (10 ^ t) ltac:(lia)) as E. rewrite Hn in E. destruct (neg d); lia. }
  rewrite Es. rewrite !inject_Z_mult. rewrite <- !pow10_nonneg by (subst t; lia).
  rewrite <- !Qmult_assoc, <- !pow10_add. 
  replace (t + - (9 * fu d)) with (f - frac_digits d + - f) by (subst t; lia). reflexivity.
Qed.

(** Monotone, idempotent, close. *)
Lemma Qfloor_plus_Z q z : Qfloor (q + inject_Z z) = Qfloor q + z.
Proof.
  destruct q as [n p]. unfold Qplus, inject_Z, Qfloor. cbn [Qnum Qden]. rewrite Pos.mul_1_r.
  rewrite Z.mul_1_r. apply Z.div_add. lia.
Qed.

Lemma round_away_close q : (Qabs (inject_Z (round_away q) - q) <= 1 # 2)%Q.
Proof.
  unfold round_away. apply Qabs_Qle_condition. destruct (Qle_bool 0 q) eqn:E.
  - pose proof (Qfloor_le (q + (1 # 2))) as L. pose proof (Qlt_floor (q + (1 # 2))) as U.
    rewrite inject_Z_plus in U. change (inject_Z 1) with 1%Q in U. split; lra.
  - pose proof (Qfloor_le (- q + (1 # 2))) as L. pose proof (Qlt_floor (- q + (1 # 2))) as U.
    rewrite inject_Z_plus in U. change (inject_Z 1) with 1%Q in U. rewrite inject_Z_opp. split; lra.
Qed.
Lemma round_away_mono p q : (p <= q)%Q -> round_away p <= round_away q.
Proof.
  intros H. unfold round_away.
  destruct (Qle_bool 0 p) eqn:Ep, (Qle_bool 0 q) eqn:Eq.
  - apply Qfloor_resp_le. lra.
  - exfalso. rewrite Qle_bool_iff in Ep. assert (~ (0 <= q)%Q) by (rewrite <- Qle_bool_iff; congruence). apply H0. lra.
  - assert (~ (0 <= p)%Q) by (rewrite <- Qle_bool_iff; congruence). rewrite Qle_bool_iff in Eq.
    assert (0 <= Qfloor (- p + (1 # 2))) by (change 0 with (Qfloor 0); apply Qfloor_resp_le; lra).
    assert (0 <= Qfloor (q + (1 # 2))) by (change 0 with (Qfloor 0); apply Qfloor_resp_le; lra). lia.
  - assert (Qfloor (- q + (1 # 2)) <= Qfloor (- p + (1 # 2))) by (apply Qfloor_resp_le; lra). lia.
Qed.

Lemma round_at_close q f : (Qabs (round_at q f - q) <= pow10 (- f) * (1 # 2))%Q.
Proof.
  assert (E : (round_at q f - q == (inject_Z (round_away (q * pow10 f)) - q * pow10 f) * pow10 (- f))%Q).
  { unfold round_at. pose proof (pow10_inv f). 
    setoid_replace ((inject_Z (round_away (q * pow10 f)) - q * pow10 f) * pow10 (- f))%Q
      with (inject_Z (round_away (q * pow10 f)) * pow10 (- f) - q * (pow10 (- f) * pow10 f))%Q by ring.
    rewrite H. ring. }
  rewrite E, Qabs_Qmult. pose proof (pow10_pos (- f)) as P. rewrite (Qabs_pos (pow10 (- f))) by lra.
  pose proof (round_away_close (q * pow10 f)). nra.
Qed.
Lemma round_at_mono p q f : (p <= q)%Q -> (round_at p f <= round_at q f)%Q.
Proof.
  intros H. unfold round_at. pose proof (pow10_pos (- f)). pose proof (pow10_pos f).
  assert (round_away (p * pow10 f) <= round_away (q * pow10 f)) by (apply round_away_mono; nra).
  rewrite Zle_Qle in H2. nra.
Qed.
Lemma round_at_idem q f : (round_at (round_at q f) f == round_at q f)%Q.
Proof. apply (round_at_multiple _ f (round_away (q * pow10 f))). reflexivity. Qed.
