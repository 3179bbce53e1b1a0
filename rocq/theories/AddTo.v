(** * [add_to] and [sub_to] as operations on numbers. *)
From Coq Require Import ZArith List Bool Lia QArith Qabs.
From Coq Require Import ZifyBool ZifyNat.
Import ListNotations.
From Verif Require Import Rust Tables Model_Base Model_Cmp Model_Round Model_Arith Spec Lib Cmp AddSub Sign.
Open Scope Z_scope.
Ltac Zify.zify_post_hook ::= Z.div_mod_to_equations.

Lemma sub_with_borrow_shape m a b c r c' : sub_with_borrow m a b c = Ret (r, c') -> True.
Proof. auto. Qed.

Lemma sub_loop_len m n a b li ri r si c r' c' : sub_loop m n a b li ri r si c = Ret (r', c') -> length r' = length r.
Proof.
  revert li ri r si c; induction n as [|n IH]; cbn [sub_loop]; intros li ri r si c H.
  - injection H as <- <-. auto.
  - inv_bind H. inv_bind H. inv_bind H. destruct x1 as [r0 c0]. inv_bind H.
    apply set_inv in H3. destruct H3 as [_ ->]. apply IH in H. rewrite upd_length in H. assumption.
Qed.
Lemma sub_rest_len m n a li r si c r' c' : sub_rest m n a li r si c = Ret (r', c') -> length r' = length r.
Proof.
  revert li r si c; induction n as [|n IH]; cbn [sub_rest]; intros li r si c H.
  - injection H as <- <-. auto.
  - inv_bind H. inv_bind H. destruct x0 as [r0 c0]. inv_bind H.
    apply set_inv in H2. destruct H2 as [_ ->]. apply IH in H. rewrite upd_length in H. assumption.
Qed.
Lemma sub_low_len m n a li r si c r' c' : sub_low m n a li r si c = Ret (r', c') -> length r' = length r.
Proof.
  revert li r si c; induction n as [|n IH]; cbn [sub_low]; intros li r si c H.
  - injection H as <- <-. auto.
  - inv_bind H. inv_bind H. destruct x0 as [r0 c0]. inv_bind H.
    apply set_inv in H2. destruct H2 as [_ ->]. apply IH in H. rewrite upd_length in H. assumption.
Qed.
Lemma negate_units_len m n l i c l' c' : negate_units m n l i c = Ret (l', c') -> length l' = length l.
Proof.
  revert l i c; induction n as [|n IH]; cbn [negate_units]; intros l i c H.
  - injection H as <- <-. auto.
  - inv_bind H. inv_bind H. destruct x0 as [r0 c0]. inv_bind H.
    apply set_inv in H2. destruct H2 as [_ ->]. apply IH in H. rewrite upd_length in H. assumption.
Qed.

Lemma sub_abs_fits m a b r0 x : wf a -> wf b -> sub_abs m a b r0 = Ret x ->
  Z.max (iu a) (iu b) + Z.max (fu a) (fu b) <= 8.
Proof.
  intros Ha Hb H. pose proof (wf_counts a Ha) as Ca. pose proof (wf_counts b Hb) as Cb.
  unfold sub_abs in H. rewrite !intg_units_ok, !frac_units_ok in H by assumption.
  rewrite !bind_Ret in H. cbn [set_zero reset_units fd_lsu fd_intg fd_frac] in H.
  apply bind_inv in H. destruct H as ([[[[li ri] si] r1] c1] & E1 & H).
  assert (L1 : length r1 = 9%nat).
  { destruct (fu a - fu b ?= 0).
    - injection E1 as <- <- <- <- <-. reflexivity.
    - inv_bind E1. destruct x0 as [r c]. injection E1 as <- <- <- <- <-.
      apply sub_low_len in H0. exact H0.
    - inv_bind E1. inv_bind E1. injection E1 as <- <- <- <- <-. apply write_slice_inv in H1.
      destruct H1 as (? & ? & ? & ->). rewrite blit_length; [reflexivity | lia | lia]. }
  apply bind_inv in H. destruct H as ([r2 c2] & E2 & H). apply sub_loop_len in E2.
  apply bind_inv in H. destruct H as ([[r3 c3] s3] & E3 & H).
  assert (L3 : length r3 = 9%nat).
  { destruct (iu a - iu b ?= 0).
    - injection E3 as <- <- <-. congruence.
    - inv_bind E3. destruct x0 as [r c]. injection E3 as <- <- <-. apply sub_low_len in H0. congruence.
    - inv_bind E3. destruct x0 as [r c]. injection E3 as <- <- <-. apply sub_rest_len in H0. congruence. }
  apply bind_inv in H. destruct H as (r4 & E4 & H).
  assert (L4 : length r4 = 9%nat).
  { destruct (c3 =? -1).
    - inv_bind E4. destruct x0 as [r c]. injection E4 as <-. apply negate_units_len in H0. congruence.
    - congruence. }
  clear E1 E3 E4.
  unfold frac_units, frac in H. cbn [fd_frac] in H.
  rewrite get_units_ok in H by (unfold frac_digits in *; lia). rewrite bind_Ret in H.
  rewrite units_for_max in H. change (units_for (fd_frac a)) with (fu a) in H. change (units_for (fd_frac b)) with (fu b) in H.
  apply bind_inv in H. destruct H as (k & E & _).
  apply top_non_zero_fits in E; [|lia]. unfold zlen in E. lia.
Qed.

(** Aligned magnitudes and numerators. *)
Lemma amag_amg a b d : wf a -> wf b -> d = a \/ d = b ->
  amag d = amg a b d * base ^ (9 - Z.max (fu a) (fu b)).
Proof.
  intros Ha Hb Hd. pose proof (wf_counts a Ha). pose proof (wf_counts b Hb).
  unfold amag, amg. rewrite <- Z.mul_assoc, <- base_pow_split by (destruct Hd as [->| ->]; lia).
  do 2 f_equal. lia.
Qed.
Lemma abs_result_amag a b d T : abs_result d (Z.max (fd_frac a) (fd_frac b)) T ->
  amag d = T * base ^ (9 - Z.max (fu a) (fu b)).
Proof.
  intros (_ & _ & _ & _ & Hf & Hm & _). unfold amag. rewrite Hm. do 2 f_equal.
  unfold fu at 1, frac_digits. rewrite Hf, units_for_max. reflexivity.
Qed.
Lemma abs_result_good d fr T : abs_result d fr T -> good d.
Proof. intros (W & C & Ti & _). constructor; assumption. Qed.

Lemma pow10_base n : 0 <= n -> base ^ n = 10 ^ (9 * n).
Proof. intros. rewrite Z.pow_mul_r by lia. reflexivity. Qed.

Lemma amg_nohidden a b d : wf a -> wf b -> d = a \/ d = b -> nohidden d ->
  (10 ^ (9 * Z.max (fu a) (fu b) - Z.max (fd_frac a) (fd_frac b)) | amg a b d).
Proof.
  intros Ha Hb Hd Hn. assert (Hw : wf d) by (destruct Hd as [->| ->]; assumption).
  pose proof (wf_counts a Ha). pose proof (wf_counts b Hb). pose proof (wf_counts d Hw).
  unfold frac_digits in *.
  assert (fu a = units_for (fd_frac a)) by reflexivity. assert (fu b = units_for (fd_frac b)) by reflexivity.
  assert (fu d = units_for (fd_frac d)) by reflexivity.
  set (F := Z.max (fu a) (fu b)). set (g := Z.max (fd_frac a) (fd_frac b)).
  assert (Hg : fd_frac d <= g /\ fu d <= F) by (subst F g; destruct Hd as [->| ->]; lia).
  assert (HF : F = units_for g) by (subst F g; rewrite units_for_max; congruence).
  unfold nohidden, frac_digits in Hn. apply Z.mod_divide in Hn; [|apply Z.pow_nonzero; unfold units_for in *; lia].
  destruct Hn as [q Hq]. unfold amg. fold F. rewrite Hq.
  exists (q * 10 ^ (g - fd_frac d)).
  rewrite pow10_base by lia. rewrite <- !Z.mul_assoc, <- !Z.pow_add_r by (unfold units_for in *; lia).
  do 2 f_equal. lia.
Qed.

Lemma abs_result_nohidden a b d T : wf a -> wf b -> abs_result d (Z.max (fd_frac a) (fd_frac b)) T ->
  (10 ^ (9 * Z.max (fu a) (fu b) - Z.max (fd_frac a) (fd_frac b)) | T) -> nohidden d.
Proof.
  intros Ha Hb (_ & _ & _ & _ & Hf & Hm & _) Hd. unfold nohidden, fu, frac_digits.
  rewrite Hm, Hf, units_for_max. change (units_for (fd_frac a)) with (fu a). change (units_for (fd_frac b)) with (fu b).
  apply Z.mod_divide; [|assumption]. apply Z.pow_nonzero; [lia|].
  pose proof (wf_counts a Ha). pose proof (wf_counts b Hb).
  unfold fu, units_for, frac_digits in *. lia.
Qed.

(** A result of the general path: exact number, canonical digits. *)
Definition arith_result (a b d : fd) (v : Z) : Prop :=
  good d /\ fd_frac d = Z.max (fd_frac a) (fd_frac b) /\ num d = v /\ not_negzero d /\
  (nohidden a -> nohidden b -> nohidden d) /\
  int_digits d = 9 * iu d /\ (iu d = 0 \/ base ^ (iu d + fu d - 1) <= magnitude d).

(** Applying the sign to an absolute result. *)
Lemma sign_result a b d T (s : bool) : wf a -> wf b ->
  abs_result d (Z.max (fd_frac a) (fd_frac b)) T -> 0 <= T ->
  (nohidden a -> nohidden b -> (10 ^ (9 * Z.max (fu a) (fu b) - Z.max (fd_frac a) (fd_frac b)) | T)) ->
  arith_result a b (if s then set_neg_and_check_zero d else d)
    (if s then - (T * base ^ (9 - Z.max (fu a) (fu b))) else T * base ^ (9 - Z.max (fu a) (fu b))).
Proof.
  intros Ha Hb H HT Hh. pose proof (abs_result_amag a b d T H) as Ham.
  pose proof (abs_result_good _ _ _ H) as Hg.
  pose proof (abs_result_nohidden a b d T Ha Hb H) as Hnh.
  destruct H as (W & C & Ti & Hneg & Hf & Hm & Hi & Htop).
  destruct s.
  - pose proof (check_zero_same d (wf_intg d W)) as S.
    split; [apply check_zero_good, Hg|].
    split; [destruct S as (_ & -> & _); exact Hf|].
    split; [rewrite check_zero_num by assumption; congruence|].
    split.
    { unfold not_negzero. rewrite check_zero_neg by assumption. rewrite check_zero_num by assumption.
      intros E. unfold amag. pose proof (wf_counts d W). pose proof (pow_base_pos (9 - fu d)).
      pose proof (magnitude_nonneg d W). nia. }
    split; [intros; eapply same_nohidden; eauto|].
    rewrite (same_iu d _ S), (same_fu d _ S), (same_magnitude d _ S). destruct S as (-> & _). auto.
  - split; [exact Hg|]. split; [exact Hf|]. split; [unfold num; rewrite Hneg; exact Ham|].
    split; [unfold not_negzero; congruence|]. auto.
Qed.

Lemma add_path m a b r0 rs d0 s : wf a -> wf b -> add_abs m a b r0 = Ret (rs, d0) ->
  exists d, finish_sign (rs, d0) s = Ret (Ok tt, d) /\
    arith_result a b d (if s then - (amag a + amag b) else amag a + amag b).
Proof.
  intros Ha Hb H. pose proof (add_abs_fits m a b r0 _ Ha Hb H) as Hfit.
  destruct (add_abs_run m a b r0 Ha Hb Hfit) as [(d & E & R & _)|(E & _)]; [|congruence].
  rewrite H in E. injection E as -> ->.
  eexists. split; [reflexivity|].
  rewrite (amag_amg a b a), (amag_amg a b b) by auto. rewrite <- Z.mul_add_distr_r.
  apply sign_result; auto.
  - pose proof (amg_bound a b a Ha Hb (or_introl eq_refl)). pose proof (amg_bound a b b Ha Hb (or_intror eq_refl)). lia.
  - intros. apply Z.divide_add_r; apply amg_nohidden; auto.
Qed.

Lemma sub_path m a b r0 rs d0 s : wf a -> wf b -> sub_abs m a b r0 = Ret (rs, d0) ->
  exists d, finish_sub (rs, d0) s = Ret (Ok tt, d) /\
    arith_result a b d (if s then - (amag a - amag b) else amag a - amag b).
Proof.
  intros Ha Hb H. pose proof (sub_abs_fits m a b r0 _ Ha Hb H) as Hfit.
  destruct (sub_abs_run m a b r0 Ha Hb Hfit) as (d & E & R).
  rewrite H in E. injection E as -> ->.
  eexists. split; [reflexivity|].
  rewrite (amag_amg a b a), (amag_amg a b b) by auto. rewrite <- Z.mul_sub_distr_r.
  set (T := amg a b a - amg a b b) in *.
  assert (HR : arith_result a b (if xorb (T <? 0) s then set_neg_and_check_zero d else d)
    (if xorb (T <? 0) s then - (Z.abs T * base ^ (9 - Z.max (fu a) (fu b))) else Z.abs T * base ^ (9 - Z.max (fu a) (fu b)))).
  { apply sign_result; auto; [lia|]. intros. apply Z.divide_abs_r. apply Z.divide_sub_r; apply amg_nohidden; auto. }
  match goal with |- arith_result _ _ _ ?v => match type of HR with arith_result _ _ _ ?w => replace v with w; [exact HR|] end end.
  clear. destruct (Z.ltb_spec T 0) as [Hl|Hl], s; cbn [xorb].
  - rewrite Z.abs_neq by lia. ring.
  - rewrite Z.abs_neq by lia. ring.
  - rewrite Z.abs_eq by lia. ring.
  - rewrite Z.abs_eq by lia. ring.
Qed.

(** What every returning addition/subtraction guarantees. *)
Definition exact_result (a b d : fd) (v : Z) : Prop :=
  wf d /\ num d = v /\ (clean a -> clean b -> clean d) /\ (tight a -> tight b -> tight d) /\
  (nohidden a -> nohidden b -> nohidden d) /\
  (clean a -> clean b -> not_negzero a -> not_negzero b -> not_negzero d) /\
  (is_zero a = false -> is_zero b = false -> good d /\ not_negzero d /\ fd_frac d = Z.max (fd_frac a) (fd_frac b)).

Lemma arith_exact a b d v : arith_result a b d v -> exact_result a b d v.
Proof.
  intros ([W C T] & Hf & Hv & Hz & Hh & _). unfold exact_result.
  split; [exact W|]. split; [exact Hv|]. split; [auto|]. split; [auto|]. split; [exact Hh|]. split; [auto|].
  intros _ _. split; [constructor; assumption|]. auto.
Qed.

Lemma add_to_ret m a b r0 rs d : wf a -> wf b -> add_to m a b r0 = Ret (rs, d) ->
  rs = Ok tt /\ exact_result a b d (num a + num b).
Proof.
  intros Ha Hb H. unfold add_to in H.
  destruct (is_zero a) eqn:Za.
  { injection H as <- <-. split; [reflexivity|]. rewrite (is_zero_num a Za).
    unfold exact_result. split; [exact Hb|]. split; [reflexivity|]. repeat (split; [tauto|]). congruence. }
  destruct (is_zero b) eqn:Zb.
  { injection H as <- <-. split; [reflexivity|]. rewrite (is_zero_num b Zb), Z.add_0_r.
    unfold exact_result. split; [exact Ha|]. split; [reflexivity|]. repeat (split; [tauto|]). congruence. }
  rewrite !is_neg_ok in H by (apply wf_intg; assumption).
  destruct (eqb (neg a) (neg b)) eqn:En.
  - apply eqb_prop in En. inv_bind H. destruct x as [rs0 d0].
    destruct (add_path m a b r0 rs0 d0 (neg a) Ha Hb H0) as (d' & E & R). rewrite H in E. injection E as -> ->.
    split; [reflexivity|]. apply arith_exact in R. unfold num. rewrite <- En.
    destruct (neg a); [replace (- amag a + - amag b) with (- (amag a + amag b)) by ring|]; exact R.
  - apply eqb_false_iff in En. inv_bind H. destruct x as [rs0 d0].
    destruct (sub_path m a b r0 rs0 d0 (neg a) Ha Hb H0) as (d' & E & R). rewrite H in E. injection E as -> ->.
    split; [reflexivity|]. apply arith_exact in R. unfold num.
    destruct (neg a), (neg b); try congruence; [|exact R].
    replace (- amag a + amag b) with (- (amag a - amag b)) by ring. exact R.
Qed.

Lemma sub_to_ret m a b r0 rs d : wf a -> wf b -> sub_to m a b r0 = Ret (rs, d) ->
  rs = Ok tt /\ exact_result a b d (num a - num b).
Proof.
  intros Ha Hb H. unfold sub_to in H.
  destruct (is_zero a) eqn:Za.
  { cbv zeta in H. rewrite is_neg_ok in H by (apply wf_intg; assumption).
    injection H as <- <-. split; [reflexivity|]. rewrite (is_zero_num a Za), Z.sub_0_l.
    destruct (neg b) eqn:Nb.
    - pose proof (set_pos_same b) as S. split; [apply set_pos_wf, Hb|].
      split. { rewrite set_pos_num by assumption. unfold num. rewrite Nb. lia. }
      split; [intros; eapply same_clean; eauto|]. split; [intros; eapply same_tight; eauto|].
      split; [intros; eapply same_nohidden; eauto|].
      split; [|congruence]. intros _ _ _ _. unfold not_negzero. rewrite set_pos_neg. discriminate.
    - pose proof (check_zero_same b (wf_intg b Hb)) as S. split; [apply check_zero_wf, Hb|].
      split. { rewrite check_zero_num by assumption. unfold num. rewrite Nb. lia. }
      split; [intros; eapply same_clean; eauto|]. split; [intros; eapply same_tight; eauto|].
      split; [intros; eapply same_nohidden; eauto|].
      split; [|congruence]. intros _ Cb _ _. unfold not_negzero.
      rewrite check_zero_neg, check_zero_num by assumption. intros E.
      pose proof (amag_magnitude_zero b Hb). pose proof (magnitude_nonneg b Hb).
      destruct (Z.eqb_spec (magnitude b) 0); [discriminate E|]. lia. }
  destruct (is_zero b) eqn:Zb.
  { injection H as <- <-. split; [reflexivity|]. rewrite (is_zero_num b Zb), Z.sub_0_r.
    unfold exact_result. split; [exact Ha|]. split; [reflexivity|]. repeat (split; [tauto|]). congruence. }
  rewrite !is_neg_ok in H by (apply wf_intg; assumption).
  destruct (eqb (neg a) (neg b)) eqn:En; cbn [negb] in H.
  - apply eqb_prop in En. inv_bind H. destruct x as [rs0 d0].
    destruct (sub_path m a b r0 rs0 d0 (neg a) Ha Hb H0) as (d' & E & R). rewrite H in E. injection E as -> ->.
    split; [reflexivity|]. apply arith_exact in R. unfold num. rewrite <- En.
    destruct (neg a); [replace (- amag a - - amag b) with (- (amag a - amag b)) by ring|]; exact R.
  - apply eqb_false_iff in En. inv_bind H. destruct x as [rs0 d0].
    destruct (add_path m a b r0 rs0 d0 (neg a) Ha Hb H0) as (d' & E & R). rewrite H in E. injection E as -> ->.
    split; [reflexivity|]. apply arith_exact in R. unfold num.
    destruct (neg a), (neg b); try congruence.
    + replace (- amag a - amag b) with (- (amag a + amag b)) by ring. exact R.
    + replace (amag a - - amag b) with (amag a + amag b) by ring. exact R.
Qed.

(** The exact domain on which they return. *)
Definition units_needed (a b : fd) : Z := Z.max (iu a) (iu b) + Z.max (fu a) (fu b).
Definition sum_fits (a b : fd) : Prop :=
  units_needed a b <= 7 \/ (units_needed a b = 8 /\ amag a + amag b < base ^ (9 + Z.max (iu a) (iu b))).

Lemma amg_sum_fits a b : wf a -> wf b ->
  (amg a b a + amg a b b < base ^ (units_needed a b) <-> amag a + amag b < base ^ (9 + Z.max (iu a) (iu b))).
Proof.
  intros Ha Hb. rewrite (amag_amg a b a), (amag_amg a b b) by auto. rewrite <- Z.mul_add_distr_r.
  pose proof (wf_counts a Ha). pose proof (wf_counts b Hb). unfold units_needed.
  replace (9 + Z.max (iu a) (iu b)) with ((Z.max (iu a) (iu b) + Z.max (fu a) (fu b)) + (9 - Z.max (fu a) (fu b))) by lia.
  rewrite (base_pow_split (Z.max (iu a) (iu b) + Z.max (fu a) (fu b))) by lia.
  pose proof (pow_base_pos (9 - Z.max (fu a) (fu b))). rewrite <- Z.mul_lt_mono_pos_r by lia. tauto.
Qed.

Definition returns {A} (o : outcome A) : Prop := exists x, o = Ret x.

Lemma add_abs_dom m a b r0 : wf a -> wf b -> (returns (add_abs m a b r0) <-> sum_fits a b).
Proof.
  intros Ha Hb. pose proof (amg_sum_fits a b Ha Hb) as HS. unfold sum_fits.
  split.
  - intros [x E]. pose proof (add_abs_fits m a b r0 x Ha Hb E) as F. fold (units_needed a b) in F.
    destruct (add_abs_run m a b r0 Ha Hb F) as [(d & _ & _ & H)|(E' & _)]; [|congruence].
    fold (units_needed a b) in H. destruct H as [H|H]; [left; assumption|].
    destruct (Z.eq_dec (units_needed a b) 8); [right|left; lia]. split; [assumption|]. apply HS, H.
  - intros H. assert (F : Z.max (iu a) (iu b) + Z.max (fu a) (fu b) <= 8) by (unfold units_needed in *; lia).
    destruct (add_abs_run m a b r0 Ha Hb F) as [(d & E & _)|(_ & H8 & H')]; [eexists; exact E|].
    exfalso. fold (units_needed a b) in H8, H'. destruct H as [H|[_ H]]; [lia|]. apply HS in H. lia.
Qed.

Lemma sub_abs_dom m a b r0 : wf a -> wf b -> (returns (sub_abs m a b r0) <-> units_needed a b <= 8).
Proof.
  intros Ha Hb. split.
  - intros [x E]. exact (sub_abs_fits m a b r0 x Ha Hb E).
  - intros F. destruct (sub_abs_run m a b r0 Ha Hb F) as (d & E & _). eexists; exact E.
Qed.

Lemma returns_bind {A B} (o : outcome A) (k : A -> outcome B) : (forall x, returns (k x)) ->
  (returns (bind o k) <-> returns o).
Proof.
  intros Hk. split.
  - intros [y E]. apply bind_inv in E. destruct E as (x & -> & _). exists x. reflexivity.
  - intros [x ->]. rewrite bind_Ret. apply Hk.
Qed.
Lemma finish_sign_ret o s : returns (finish_sign o s).
Proof. destruct o as [[?|?] ?]; eexists; reflexivity. Qed.
Lemma finish_sub_ret o s : returns (finish_sub o s).
Proof. destruct o as [[?|?] ?]; eexists; reflexivity. Qed.

Definition add_domain (a b : fd) : Prop :=
  is_zero a = true \/ is_zero b = true \/ (neg a <> neg b /\ units_needed a b <= 8) \/ sum_fits a b.
Definition sub_domain (a b : fd) : Prop :=
  is_zero a = true \/ is_zero b = true \/ (neg a = neg b /\ units_needed a b <= 8) \/ sum_fits a b.

Lemma add_to_dom m a b r0 : wf a -> wf b -> (returns (add_to m a b r0) <-> add_domain a b).
Proof.
  intros Ha Hb. unfold add_to, add_domain.
  destruct (is_zero a). { split; [auto|]. intros _. eexists; reflexivity. }
  destruct (is_zero b). { split; [auto|]. intros _. eexists; reflexivity. }
  cbv zeta. rewrite !is_neg_ok by (apply wf_intg; assumption).
  destruct (eqb (neg a) (neg b)) eqn:E.
  - apply eqb_prop in E. rewrite returns_bind by (intros; apply finish_sign_ret). rewrite add_abs_dom by assumption.
    split; [auto|]. intros [|[|[[? ?]|]]]; try discriminate; [congruence|assumption].
  - apply eqb_false_iff in E. rewrite returns_bind by (intros; apply finish_sub_ret). rewrite sub_abs_dom by assumption.
    split; [auto|]. unfold sum_fits. intros [|[|[[? ?]|]]]; try discriminate; lia.
Qed.

Lemma sub_to_dom m a b r0 : wf a -> wf b -> (returns (sub_to m a b r0) <-> sub_domain a b).
Proof.
  intros Ha Hb. unfold sub_to, sub_domain.
  destruct (is_zero a). { split; [auto|]. intros _. eexists; reflexivity. }
  destruct (is_zero b). { split; [auto|]. intros _. eexists; reflexivity. }
  cbv zeta. rewrite !is_neg_ok by (apply wf_intg; assumption).
  destruct (eqb (neg a) (neg b)) eqn:E; cbn [negb].
  - apply eqb_prop in E. rewrite returns_bind by (intros; apply finish_sub_ret). rewrite sub_abs_dom by assumption.
    split; [auto|]. unfold sum_fits. intros [|[|[[? ?]|]]]; try discriminate; lia.
  - apply eqb_false_iff in E. rewrite returns_bind by (intros; apply finish_sign_ret). rewrite add_abs_dom by assumption.
    split; [auto|]. intros [|[|[[? ?]|]]]; try discriminate; [congruence|assumption].
Qed.
