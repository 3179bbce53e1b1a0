(** * Properties: the leading digits of every quotient (C85).
    [tame_tail] is in [Spec_Lead], [group] in [Spec_Div]; the rest of the
    vocabulary is that of [Spec]. *)
From Coq Require Import ZArith List Bool String Lia QArith Qabs Qround Lqa.
From Verif Require Import Rust Model_Base Model_Arith Spec Spec_Div Spec_Lead Lib QLib Sign Basics AddSub Cmp DivBasics DivQ DivG2 DivP2 Laws Robust Robust2 MulQ RoundQ Prop_Robust Witness.
Open Scope Z_scope.

(** C85: a quotient is right down to any group before which (the leading group
    apart) it does not come close to a multiple of 10^9; below that group only
    is it allowed to go wrong. In a release build what is returned may be
    malformed, and a group of nines may not be corrected. *)
Theorem C85_leading_groups : forall m a b res incr d K, wf a -> wf b -> ~ (value b == 0)%Q ->
  div_to m a b res incr = Ret (Ok tt, d) -> wf d -> K <= fu d -> tame_tail K a b ->
  (m = Debug \/ group (value a / value b) K <= 999999998) ->
  (truncate_at (value d) (9 * K) == truncate_at (value a / value b) (9 * K))%Q.
Proof.
  intros m a b res incr d K Ha Hb Nb H Wd HK TM HM.
  destruct (Qeq_dec (value a) 0) as [V|V].
  { rewrite (div_to_zero m a b res incr Ha Hb V Nb) in H. apply Ret_inj in H. assert (d = zero) as -> by congruence.
    apply truncate_at_comp. rewrite V. unfold Qdiv. rewrite Qmult_0_l. reflexivity. }
  pose proof V as V'. pose proof Nb as Nb'. rewrite value_zero_iff in V', Nb' by assumption.
  destruct (div_to_any m a b res incr _ d Ha Hb V Nb H) as (_ & _ & _ & S & _).
  unfold div_to in H. cbv zeta in H. rewrite !is_neg_ok in H by (apply wf_intg; assumption). apply bind_inv in H. destruct H as ([rs0 d0] & E & H).
  destruct (div_abs_any m a b res _ rs0 d0 Ha Hb V' Nb' E) as (lnz & rnz & L & [(_ & -> & ->)|(_ & -> & Lo & P & I)]); [discriminate|].
  cbn [finish_sign] in H. apply Ret_inj in H.
  assert (SD : same_digits d0 d).
  { replace d with (if xorb (neg a) (neg b) then set_neg_and_check_zero d0 else d0) by congruence. destruct (xorb (neg a) (neg b)); [apply check_zero_same, Lo|repeat split]. }
  clear H. pose proof SD as (_ & _ & SL). pose proof (wf_counts d Wd) as CD.
  assert (M : magnitude d / base ^ (fu d - K) = Qfloor (Qabs (value a / value b) * pow10 (9 * K))).
  { rewrite (same_magnitude _ _ SD), (same_fu _ _ SD). eapply div_abs_prefix; try eassumption.
    - rewrite <- SL. apply wf_uok, Wd.
    - rewrite <- (same_fu _ _ SD). exact HK. }
  rewrite truncate_at_value by (assumption || lia). unfold truncate_at. apply Qmult_comp; [|reflexivity].
  assert (EB : 10 ^ (9 * fu d - 9 * K) = base ^ (fu d - K)) by (replace (9 * fu d - 9 * K) with (9 * (fu d - K)) by lia; rewrite Z.pow_mul_r by lia; reflexivity). rewrite EB.
  rewrite (truncate_comp (value a / value b * pow10 (9 * K)) (if xorb (neg a) (neg b) then - (Qabs (value a / value b) * pow10 (9 * K)) else Qabs (value a / value b) * pow10 (9 * K))%Q).
  2:{ set (x := Qabs (value a / value b)). transitivity ((if xorb (neg a) (neg b) then - x else x) * pow10 (9 * K))%Q;
      [apply Qmult_comp; [apply quotient_sign; assumption|reflexivity]|destruct (xorb (neg a) (neg b)); ring]. }
  rewrite truncate_sign by (apply Qmult_le_0_compat; [apply Qabs_nonneg|apply Qlt_le_weak, pow10_pos]). rewrite <- M.
  destruct (Qeq_dec (value d) 0) as [Vd|Vd].
  - rewrite value_zero_iff in Vd by assumption. rewrite Vd. rewrite Z.div_0_l by (pose proof (pow_base_pos (fu d - K) ltac:(lia)); lia). destruct (neg d), (xorb (neg a) (neg b)); reflexivity.
  - rewrite (S Vd). destruct (xorb (neg a) (neg b)); reflexivity.
Qed.
Print Assumptions C85_leading_groups.

(** Nothing is asked of the leading group. *)
Lemma tail_leading K a b : (Qabs (value a / value b) < pow10 (9 * (1 - K)))%Q -> tame_tail K a b.
Proof.
  intros H. assert (X : forall k, k <= K -> ~ (1 <= Qabs (value a / value b) * pow10 (9 * (k - 1)))%Q).
  { intros k Hk Y. apply (Qle_not_lt _ _ Y). apply Qlt_le_trans with (pow10 (9 * (1 - K)) * pow10 (9 * (k - 1)))%Q; [apply Qmult_lt_compat_r; [apply pow10_pos|exact H]|].
    rewrite <- pow10_add. change 1%Q with (pow10 0). apply pow10_mono. lia. }
  split; [intros k Hk Y; exfalso; exact (X k Hk Y)|]. right. intros k Hk Y. exfalso. apply (X (k - 1) ltac:(lia)). replace (k - 1 - 1) with (k - 2) by lia. exact Y.
Qed.

(** C85: in a debug build the leading nine-digit group of every quotient that is
    returned is right, whatever the operands: [9 * K] is the position where that
    group ends (or an earlier one). *)
Theorem C85_leading_group : forall a b res incr d K, wf a -> wf b -> ~ (value b == 0)%Q ->
  div_to Debug a b res incr = Ret (Ok tt, d) -> 9 * K <= frac_digits d -> (Qabs (value a / value b) < pow10 (9 * (1 - K)))%Q ->
  (truncate_at (value d) (9 * K) == truncate_at (value a / value b) (9 * K))%Q.
Proof.
  intros a b res incr d K Ha Hb Nb H HK HQ. destruct (C36_debug_quotients_partial a b res incr _ d Ha Hb H) as (W & _).
  apply (C85_leading_groups Debug a b res incr d K Ha Hb Nb H W); [|apply tail_leading, HQ|left; reflexivity].
  pose proof (frac_le_fu d W). lia.
Qed.
Print Assumptions C85_leading_group.

Lemma truncate_at_abs q f : (Qabs (truncate_at q f) <= Qabs q /\ Qabs q < Qabs (truncate_at q f) + pow10 (- f))%Q.
Proof.
  assert (P : forall x, (0 <= x)%Q -> (Qabs (truncate_at x f) <= Qabs x /\ Qabs x < Qabs (truncate_at x f) + pow10 (- f))%Q).
  { intros x Hx. destruct (truncate_at_pos x f Hx) as (A & B & C). rewrite !Qabs_pos by assumption. split; assumption. }
  destruct (Qlt_le_dec q 0) as [N|N]; [|apply P, N].
  pose proof (P (- q)%Q ltac:(lra)) as X. rewrite (Qabs_wd _ _ (truncate_at_opp q f)) in X. rewrite !Qabs_opp in X. exact X.
Qed.

(** C85: so no quotient that a debug build returns is far off. It is zero exactly
    if the true quotient is below its last place; and otherwise each of the two is
    less than twice the other, and they have the same sign. *)
Theorem C85_never_far_off : forall a b res incr d, wf a -> wf b -> ~ (value b == 0)%Q ->
  div_to Debug a b res incr = Ret (Ok tt, d) ->
  ((value d == 0)%Q <-> (Qabs (value a / value b) < pow10 (- frac_digits d))%Q) /\
  (~ (value d == 0)%Q -> (Qabs (value d) < 2 * Qabs (value a / value b) /\ Qabs (value a / value b) < 2 * Qabs (value d) /\
     0 < value d * (value a / value b))%Q).
Proof.
  intros a b res incr d Ha Hb Nb H. pose proof (C85_leading_group a b res incr d) as LG.
  destruct (C36_debug_quotients_partial a b res incr _ d Ha Hb H) as (W & _). pose proof (wf_counts d W) as CD.
  destruct (Qeq_dec (value a) 0) as [V|V].
  { rewrite (div_to_zero Debug a b res incr Ha Hb V Nb) in H. apply Ret_inj in H. assert (d = zero) as -> by congruence.
    assert (Q0 : (Qabs (value a / value b) == 0)%Q) by (rewrite V; unfold Qdiv; rewrite Qmult_0_l; reflexivity).
    split; [|intros X; exfalso; apply X; reflexivity]. split; [intros _; rewrite Q0; apply pow10_pos|intros _; reflexivity]. }
  destruct (div_to_any Debug a b res incr _ d Ha Hb V Nb H) as (Lo & _ & _ & S & e & E1 & E2 & [(_ & ? & _)|(Be & _ & _)]); [discriminate|].
  pose proof (lr_frac _ d Lo) as FD. change (fd_frac d) with (frac_digits d) in FD. rewrite FD in LG |- *.
  assert (SG : ~ (value d == 0)%Q -> (0 < value d * (value a / value b))%Q).
  { intros Vd. assert (X : (value d * (value a / value b) == Qabs (value d) * Qabs (value a / value b))%Q).
    { rewrite (value_sign d W) at 1. rewrite (quotient_sign a b Ha Hb) at 1. rewrite (S Vd). destruct (xorb (neg a) (neg b)); ring. }
    rewrite X. assert (0 < Qabs (value d))%Q. { destruct (Qle_lt_or_eq 0 (Qabs (value d)) (Qabs_nonneg _)) as [Y|Y]; [exact Y|]. exfalso. apply Vd. symmetry in Y. rewrite value_sign by exact W. destruct (neg d); lra. }
    assert (0 < Qabs (value a / value b))%Q by (eapply Qlt_le_trans; [apply (pow10_pos (9 * (e - 1)))|exact E1]).
    apply Qmult_lt_0_compat; assumption. }
  assert (AD : forall K, (Qabs (truncate_at (value d) (9 * K)) <= Qabs (value d) /\ Qabs (value d) < Qabs (truncate_at (value d) (9 * K)) + pow10 (- (9 * K)))%Q) by (intros K; apply truncate_at_abs).
  assert (AQ : forall K, (Qabs (truncate_at (value a / value b) (9 * K)) <= Qabs (value a / value b) /\ Qabs (value a / value b) < Qabs (truncate_at (value a / value b) (9 * K)) + pow10 (- (9 * K)))%Q) by (intros K; apply truncate_at_abs).
  destruct (Z.le_gt_cases (1 - e) (fu d)) as [C|C].
  - (* the leading group is there *)
    set (K := 1 - e) in *. specialize (LG K Ha Hb Nb H ltac:(lia)). assert (EK : 9 * (1 - K) = 9 * e) by (unfold K; lia). rewrite EK in LG. specialize (LG E2).
    specialize (AD K). specialize (AQ K). rewrite (Qabs_wd _ _ LG) in AD.
    assert (T1 : (pow10 (9 * (e - 1)) <= Qabs (truncate_at (value a / value b) (9 * K)))%Q).
    { assert (X : (truncate_at (pow10 (9 * (e - 1))) (9 * K) == pow10 (9 * (e - 1)))%Q).
      { apply (truncate_at_multiple _ (9 * K) 1). rewrite Qmult_1_l. replace (- (9 * K)) with (9 * (e - 1)) by (unfold K; lia). reflexivity. }
      rewrite <- X. destruct (Qlt_le_dec (value a / value b) 0) as [N|N].
      - rewrite <- Qabs_opp. rewrite <- (Qabs_wd _ _ (truncate_at_opp (value a / value b) (9 * K))). rewrite Qabs_pos by (apply truncate_at_pos; lra).
        apply truncate_at_mono. rewrite Qabs_neg in E1 by lra. exact E1.
      - rewrite Qabs_pos by (apply truncate_at_pos; exact N). apply truncate_at_mono. rewrite Qabs_pos in E1 by exact N. exact E1. }
    replace (- (9 * K)) with (9 * (e - 1)) in * by (unfold K; lia). pose proof (pow10_pos (9 * (e - 1))) as PP.
    set (t := Qabs (truncate_at (value a / value b) (9 * K))) in *. set (q := Qabs (value a / value b)) in *. set (x := pow10 (9 * (e - 1))) in *.
    assert (ND : ~ (value d == 0)%Q). { intros X. rewrite (Qabs_wd _ _ X) in AD. change (Qabs 0) with 0%Q in AD. lra. }
    split.
    + split; [intros X; contradiction|]. intros X. exfalso. assert (Y : (pow10 (- (9 * fu d)) <= x)%Q) by (apply pow10_mono; unfold K in C; lia). lra.
    + intros _. split; [lra|]. split; [lra|]. apply SG, ND.
  - (* the quotient is below the last place *)
    specialize (LG (fu d) Ha Hb Nb H ltac:(lia)). assert (X : (Qabs (value a / value b) < pow10 (9 * (1 - fu d)))%Q).
    { eapply Qlt_le_trans; [exact E2|]. apply pow10_mono. lia. }
    specialize (LG X). assert (Y : (Qabs (value a / value b) < pow10 (- (9 * fu d)))%Q) by (eapply Qlt_le_trans; [exact E2|apply pow10_mono; lia]).
    assert (D0 : (value d == 0)%Q).
    { assert (T0 : (truncate_at (value d) (9 * fu d) == value d)%Q) by (apply (truncate_at_multiple _ _ (smag d)); apply value_smag, W).
      rewrite T0 in LG. rewrite LG. unfold truncate_at.
      assert (TZ : truncate (value a / value b * pow10 (9 * fu d)) = 0).
      { rewrite (truncate_comp _ (if xorb (neg a) (neg b) then - (Qabs (value a / value b) * pow10 (9 * fu d)) else Qabs (value a / value b) * pow10 (9 * fu d))%Q).
        2:{ set (x := Qabs (value a / value b)). transitivity ((if xorb (neg a) (neg b) then - x else x) * pow10 (9 * fu d))%Q;
            [apply Qmult_comp; [apply quotient_sign; assumption|reflexivity]|destruct (xorb (neg a) (neg b)); ring]. }
        rewrite truncate_sign by (apply Qmult_le_0_compat; [apply Qabs_nonneg|apply Qlt_le_weak, pow10_pos]).
        rewrite (floor_below a b e (fu d) E2) by lia. destruct (xorb (neg a) (neg b)); reflexivity. }
      rewrite TZ. ring. }
    split; [split; auto|]. intros Z. contradiction.
Qed.
Print Assumptions C85_never_far_off.

(** [K0] is the leading group. *)
Lemma tail_exact K0 E y K a b : (Qabs (value a / value b) * pow10 (9 * (K0 - 1)) < 1)%Q ->
  groups_ok 0 999999989 (value a / value b) (Z.to_nat (K - K0)) (K0 + 1) = true ->
  0 <= E /\ (E = 0 \/ (pow10 (9 * (E - 1)) <= Qabs (value a / value b))%Q) /\ (value b * pow10 (9 * (fu a + E + 1)) == inject_Z y)%Q -> tame_tail K a b.
Proof.
  intros H1 H2 H3. split; [|left; eauto]. intros k Hk Hq. destruct (Z.le_gt_cases k K0) as [L|L].
  - exfalso. apply (Qle_not_lt _ _ Hq). eapply Qle_lt_trans; [|exact H1]. rewrite !(Qmult_comm (Qabs _)). apply Qmult_le_compat_r; [apply pow10_mono; lia|apply Qabs_nonneg].
  - apply (groups_ok_spec _ _ _ _ _ H2). lia.
Qed.

(** A quotient that is not tame (it begins with 999999996), yet tame after its
    leading group: all of it is right. *)
Example C85_groups_example : let a := dec "1999999993.5" in let b := dec "2.000000000000000003" in
  wf a /\ wf b /\ ~ (value b == 0)%Q /\ tame_tail 3 a b /\ group (value a / value b) 0 = 999999996 /\
  exists d, div_to Debug a b zero 0 = Ret (Ok tt, d) /\ wf d /\ fu d = 3.
Proof.
  split; [wfd|]. split; [wfd|]. split; [vm_compute; discriminate|]. split; [|split; [vm_compute; reflexivity|]].
  - apply (tail_exact 0 0 2000000000000000003); [vm_compute; reflexivity|vm_compute; reflexivity|]. split; [lia|]. split; [left; reflexivity|vm_compute; reflexivity].
  - eexists. split; [vm_compute; reflexivity|]. split; [apply wfb_wf; vm_compute; reflexivity|vm_compute; reflexivity].
Qed.
(** A quotient that a debug build gets wrong, without a sign of it, after the
    leading group: 947286517.00000000021496367 instead of
    947286517.999999999785036331. *)
Example C85_wrong_tail_example : let a := dec "474287466904952399" in let b := dec "500680056.026040052971204665" in
  wf a /\ wf b /\ ~ (value b == 0)%Q /\ (Qabs (value a / value b) < pow10 (9 * (1 - 0)))%Q /\
  exists d, div_to Debug a b zero 0 = Ret (Ok tt, d) /\ 9 * 0 <= frac_digits d /\ d = dec "947286517.000000000214963670" /\
    (truncate_at (value a / value b) (frac_digits d) == value (dec "947286517.999999999785036331"))%Q.
Proof.
  split; [wfd|]. split; [wfd|]. split; [vm_compute; discriminate|]. split; [vm_compute; reflexivity|].
  eexists. split; [vm_compute; reflexivity|]. split; [vm_compute; discriminate|]. split; vm_compute; reflexivity.
Qed.
