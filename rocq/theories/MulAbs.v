(** * [mul_abs] and [mul_to]: result, and the exact domain on which they return. *)
From Coq Require Import ZArith List Bool Lia QArith Qabs.
From Coq Require Import ZifyBool ZifyNat.
Import ListNotations.
From Verif Require Import Rust Tables Model_Base Model_Cmp Model_Round Model_Arith Spec Lib Cmp AddSub Sign AddTo Mul.
Open Scope Z_scope.
Ltac Zify.zify_post_hook ::= Z.div_mod_to_equations.

Definition mru (a b : fd) : Z := units_for (int_digits a + int_digits b).
Definition mrf (a b : fd) : Z :=
  Z.min 4 (Z.min (units_for (frac_digits a + frac_digits b)) (9 - mru a b)).
Definition msh (a b : fd) : Z := fu a + fu b - mrf a b.

Lemma units_for_add x y : 0 <= x -> 0 <= y ->
  units_for (x + y) <= units_for x + units_for y <= units_for (x + y) + 1.
Proof. unfold units_for. lia. Qed.

Lemma mul_shape a b : wf a -> wf b -> mru a b <= 9 ->
  0 <= mru a b /\ 0 <= mrf a b <= 4 /\ mru a b + mrf a b <= 9 /\ 0 <= msh a b /\
  iu a + fu a + (iu b + fu b) - msh a b <= 10 /\
  units_for (Z.min (frac_digits a + frac_digits b) (mrf a b * 9)) = mrf a b /\
  0 <= Z.min (frac_digits a + frac_digits b) (mrf a b * 9) <= 36.
Proof.
  intros Ha Hb Hr. pose proof (wf_counts a Ha) as Ca. pose proof (wf_counts b Hb) as Cb.
  pose proof (units_for_add (int_digits a) (int_digits b) ltac:(lia) ltac:(lia)) as U1.
  pose proof (units_for_add (frac_digits a) (frac_digits b) ltac:(lia) ltac:(lia)) as U2.
  fold (iu a) (iu b) (mru a b) in U1. fold (fu a) (fu b) in U2.
  assert (0 <= mru a b) by (unfold mru, units_for; lia).
  assert (G : 0 <= units_for (frac_digits a + frac_digits b)) by (unfold units_for; lia).
  unfold msh, mrf. set (ru := mru a b) in *. clearbody ru.
  assert (M : units_for (Z.min (frac_digits a + frac_digits b) (Z.min 4 (Z.min (units_for (frac_digits a + frac_digits b)) (9 - ru)) * 9)) =
    Z.min 4 (Z.min (units_for (frac_digits a + frac_digits b)) (9 - ru))) by (clear U1 U2; unfold units_for in *; lia).
  rewrite M. repeat split; lia.
Qed.

(** Everything up to the rows. *)
Lemma mul_abs_eq m a b r0 : wf a -> wf b -> int_digits a + int_digits b <= 119 -> frac_digits a + frac_digits b <= 119 ->
  mul_abs m a b r0 =
  if mru a b >? 9 then Ret (Err Overflow, set_zero r0)
  else
    '(rs, r) <- mul_rows m (firstn (Z.to_nat (iu b + fu b)) (fd_lsu b))
                  (match firstn (Z.to_nat (iu b + fu b)) (fd_lsu b) with [] => [] | _ => firstn (Z.to_nat (iu a + fu a)) (fd_lsu a) end) 0 (msh a b) zero_units ;;
    match rs with
    | Err e => Ret (Err e, mkfd 1 0 r)
    | Ok _ => Ret (Ok tt, mkfd (mru a b * 9) (Z.min (frac_digits a + frac_digits b) (mrf a b * 9)) r)
    end.
Proof.
  intros Ha Hb Hi Hf. pose proof (wf_counts a Ha) as Ca. pose proof (wf_counts b Hb) as Cb.
  unfold mul_abs. cbv zeta. rewrite !intg_ok. unfold frac. fold (frac_digits a) (frac_digits b).
  rewrite i8_ok by lia. mret. rewrite get_units_ok by lia. mret. fold (mru a b).
  rewrite i8_ok by lia. mret. rewrite get_units_ok by lia. mret.
  change MAX_UNITS with 9. change MAX_FRAC_UNITS with 4.
  destruct (Z.gtb_spec (mru a b) 9) as [L|L]; [reflexivity|].
  pose proof (mul_shape a b Ha Hb L) as (S1 & S2 & S3 & S4 & S5 & S6 & S7).
  set (g := units_for (frac_digits a + frac_digits b)) in *.
  assert (Em : (if (if mru a b + g >? 9 then 9 - mru a b else g) >? 4 then 4 else if mru a b + g >? 9 then 9 - mru a b else g) = mrf a b).
  { unfold mrf. fold g. clear. destruct (Z.gtb_spec (mru a b + g) 9).
    - destruct (Z.gtb_spec (9 - mru a b) 4); lia.
    - destruct (Z.gtb_spec g 4); lia. }
  rewrite Em. clear Em. rewrite !intg_units_ok, !frac_units_ok by assumption. do 4 mret. fold (msh a b).
  assert (Sm : msh a b <= 18) by (unfold msh; lia).
  rewrite usize_ok by lia. mret. rewrite as_isize_id by lia.
  pose proof (wf_zlen a Ha) as La. pose proof (wf_zlen b Hb) as Lb.
  rewrite slice_ok by lia. mret. rewrite Z.sub_0_r. change (Z.to_nat 0) with 0%nat. cbn [skipn].
  set (B := firstn (Z.to_nat (iu b + fu b)) (fd_lsu b)).
  assert (El : match B with [] => Ret [] | _ => slice (fd_lsu a) 0 (iu a + fu a) end =
               Ret (match B with [] => [] | _ => firstn (Z.to_nat (iu a + fu a)) (fd_lsu a) end)).
  { destruct B; [reflexivity|]. rewrite slice_ok by lia. rewrite Z.sub_0_r. reflexivity. }
  rewrite El. mret. cbn [set_zero reset_units fd_lsu fd_intg fd_frac]. change DIGITS_PER_UNIT with 9.
  rewrite (as_i8_id (mru a b * 9)) by lia. rewrite (as_i8_id (mrf a b * 9)) by lia. reflexivity.
Qed.

(** The product of the magnitudes against the stored one. *)
Definition mul_error (a b : fd) (M : Z) : Z := magnitude a * magnitude b - base ^ msh a b * M.

Definition mul_result (a b d : fd) : Prop :=
  wf d /\ clean d /\ tight d /\ neg d = false /\ int_digits d = 9 * mru a b /\ iu d = mru a b /\ fu d = mrf a b /\
  fd_frac d = Z.min (frac_digits a + frac_digits b) (9 * mrf a b) /\
  0 <= mul_error a b (magnitude d) /\ (msh a b = 0 -> mul_error a b (magnitude d) = 0) /\
  (msh a b = 1 -> mul_error a b (magnitude d) < base) /\
  mul_error a b (magnitude d) <= (2 * base ^ msh a b - 1) * Z.min (iu b + fu b) (msh a b).

Lemma tight_product a b : wf a -> wf b -> tight a -> tight b -> mru a b <= 9 ->
  magnitude a * magnitude b < base ^ msh a b * base ^ (mru a b + mrf a b).
Proof.
  intros Ha Hb Ta Tb Hr. pose proof (mul_shape a b Ha Hb Hr) as (S1 & S2 & S3 & S4 & _).
  pose proof (wf_counts a Ha) as Ca. pose proof (wf_counts b Hb) as Cb.
  pose proof (magnitude_nonneg a Ha). pose proof (magnitude_nonneg b Hb). unfold tight in *.
  assert (magnitude a * magnitude b < (10 ^ int_digits a * base ^ fu a) * (10 ^ int_digits b * base ^ fu b)) by nia.
  assert (E : (10 ^ int_digits a * base ^ fu a) * (10 ^ int_digits b * base ^ fu b) =
          10 ^ (int_digits a + int_digits b) * base ^ (fu a + fu b)).
  { rewrite Z.pow_add_r, base_pow_split by lia. ring. }
  assert (10 ^ (int_digits a + int_digits b) <= base ^ mru a b).
  { rewrite pow10_base by lia. apply Z.pow_le_mono_r; [lia|]. unfold mru, units_for. lia. }
  rewrite <- base_pow_split by lia. replace (msh a b + (mru a b + mrf a b)) with (mru a b + (fu a + fu b)) by (unfold msh; lia).
  rewrite base_pow_split by lia. pose proof (pow_base_pos (fu a + fu b) ltac:(lia)) as PF.
  eapply Z.lt_le_trans; [eassumption|]. rewrite E. apply Z.mul_le_mono_nonneg_r; [lia|assumption].
Qed.

Lemma sg9 r n : 0 <= n <= 9 -> sg r 0 9 = sg r 0 n + base ^ n * sg r n (9 - n).
Proof. intros H. replace 9 with (n + (9 - n)) at 1 by lia. rewrite (sg_app _ 0) by lia. reflexivity. Qed.

Lemma mul_abs_ok m a b r0 : wf a -> wf b -> tight a -> tight b ->
  1 <= iu a + fu a -> 1 <= iu b + fu b ->
  int_digits a + int_digits b <= 119 -> frac_digits a + frac_digits b <= 119 ->
  mru a b <= 9 -> msh a b <= iu a + fu a -> (m = Debug -> msh a b < iu a + fu a) ->
  exists d, mul_abs m a b r0 = Ret (Ok tt, d) /\ mul_result a b d.
Proof.
  intros Ha Hb Ta Tb Na Nb Hi Hf Hr Hs HsD.
  pose proof (wf_counts a Ha) as Ca. pose proof (wf_counts b Hb) as Cb.
  rewrite mul_abs_eq by assumption. destruct (Z.gtb_spec (mru a b) 9); [lia|].
  pose proof (mul_shape a b Ha Hb Hr) as (S1 & S2 & S3 & S4 & S5 & S6 & S7).
  set (B := firstn (Z.to_nat (iu b + fu b)) (fd_lsu b)). set (A := firstn (Z.to_nat (iu a + fu a)) (fd_lsu a)).
  assert (LA : zlen A = iu a + fu a) by (subst A; rewrite zlen_firstn, wf_zlen by assumption; lia).
  assert (LB : zlen B = iu b + fu b) by (subst B; rewrite zlen_firstn, wf_zlen by assumption; lia).
  assert (EA : (match B with [] => [] | _ => A end) = A) by (destruct B; [cbn in LB; lia|reflexivity]). rewrite EA.
  assert (UA : uok A) by (apply Forall_firstn, wf_uok, Ha). assert (UB : uok B) by (apply Forall_firstn, wf_uok, Hb).
  assert (MA : sg A 0 (zlen A) = magnitude a).
  { rewrite magnitude_sg, LA. apply sg_ext. intros k Hk. subst A. rewrite zn_firstn by lia.
    replace (0 + k <? Z.of_nat (Z.to_nat (iu a + fu a))) with true by lia. reflexivity. }
  assert (MB : sg B 0 (zlen B) = magnitude b).
  { rewrite magnitude_sg, LB. apply sg_ext. intros k Hk. subst B. rewrite zn_firstn by lia.
    replace (0 + k <? Z.of_nat (Z.to_nat (iu b + fu b))) with true by lia. reflexivity. }
  clearbody A B. clear EA.
  destruct (mul_rows_ok m A (msh a b) B 0 zero_units UA UB) as (rs & r' & c' & E & L' & U' & Hc' & Hrs & Hz & HE);
    try (rewrite ?LA, ?LB; lia); [apply uok_repeat0|reflexivity|intros; apply zn_zero_units|].
  cbv zeta in HE. rewrite MA, MB in HE.
  assert (Z0 : sg zero_units 0 9 = 0) by reflexivity. rewrite Z0 in HE. rewrite Z.sub_0_r, Z.pow_0_r, Z.mul_1_l in HE.
  pose proof (tight_product a b Ha Hb Ta Tb Hr) as TP.
  destruct HE as (E0 & E1 & E2 & E3). rewrite LB, Z.sub_0_r in *.
  replace (0 + 1) with 1 in E2 by lia.
  pose proof (sg_bound r' 0 9 U' ltac:(lia)) as B9.
  pose proof (pow_base_pos (msh a b) S4) as Ps.
  assert (Hlt : sg r' 0 9 + base ^ 9 * c' < base ^ (mru a b + mrf a b)) by (clear - E0 TP Ps; nia).
  assert (H9 : base ^ (mru a b + mrf a b) <= base ^ 9) by (apply Z.pow_le_mono_r; [reflexivity|clear - S3; lia]).
  assert (c' = 0) by (clear - Hlt H9 B9 Hc'; nia). subst c'.
  destruct Hrs as [[-> _]|(_ & ? & _)]; [|lia].
  rewrite E. mret. eexists. split; [reflexivity|].
  rewrite Z.mul_0_r, Z.add_0_r in *. assert (Hlt' := Hlt).
  set (d := mkfd _ _ _).
  assert (Ii : int_digits d = 9 * mru a b) by (unfold int_digits; subst d; cbn [fd_intg]; clear - S1 Hr; rewrite Z.mod_small; lia).
  assert (Iu : iu d = mru a b) by (unfold iu; rewrite Ii; clear; unfold units_for; lia).
  assert (Fu : fu d = mrf a b) by (exact S6).
  assert (Hclean : forall k, mru a b + mrf a b <= k -> zn r' k = 0).
  { intros k Hk. destruct (Z.lt_ge_cases k 9) as [Lk|Lk]; [|apply zn_out; lia].
    assert (T : sg r' 0 9 = sg r' 0 (mru a b + mrf a b) + base ^ (mru a b + mrf a b) * sg r' (mru a b + mrf a b) (9 - (mru a b + mrf a b))).
    { apply sg9. clear - S1 S2 S3; lia. }
    pose proof (sg_nonneg r' 0 (mru a b + mrf a b) U') as Hn0. pose proof (sg_nonneg r' (mru a b + mrf a b) (9 - (mru a b + mrf a b)) U') as Hn.
    assert (Zr : sg r' (mru a b + mrf a b) (9 - (mru a b + mrf a b)) = 0) by (rewrite T in Hlt'; clear - Hlt' T Hn0 Hn B9; nia).
    apply (sg_zero_inv _ _ _ U' Zr). lia. }
  assert (Hm : magnitude d = sg r' 0 9).
  { rewrite magnitude_sg, Iu, Fu. subst d. cbn [fd_lsu].
    rewrite (sg9 r' (mru a b + mrf a b)) by (clear - S1 S2 S3; lia).
    rewrite (sg_0 r' (mru a b + mrf a b)) by (intros k Hk; apply Hclean; clear - Hk; lia). lia. }
  split. { constructor; subst d; cbn [fd_lsu fd_intg fd_frac]; [unfold zlen in L'; clear - L'; lia|exact U'|clear - S1 Hr; lia|clear - S7; lia|rewrite Iu, Fu; exact S3]. }
  split. { apply clean_intro; [|rewrite Iu, Fu; clear - S1 S2; lia]. rewrite Iu, Fu. intros k Hk. subst d. cbn [fd_lsu]. apply Hclean. clear - Hk. lia. }
  split. { unfold tight. rewrite Hm, Ii, Fu, <- pow10_base by exact S1. rewrite <- base_pow_split by (clear - S1 S2; lia). exact Hlt. }
  split. { unfold neg. subst d. cbn [fd_intg]. clear - S1. lia. }
  split; [exact Ii|]. split; [exact Iu|]. split; [exact Fu|]. split; [subst d; cbn [fd_frac]; f_equal; lia|].
  unfold mul_error. rewrite Hm. split; [exact E0|]. split; [intros H0; apply E1; lia|].
  split; [intros H1; rewrite H1 in *; rewrite Z.pow_1_r in E2; apply E2; reflexivity|].
  replace (Z.min (iu b + fu b) (msh a b)) with (Z.max 0 (Z.min (iu b + fu b) (msh a b))) by lia. exact E3.
Qed.

(** ** Where it panics *)

Lemma get_units_neg m z : -128 <= z < -8 -> get_units m z = Panic PIndex.
Proof. intros H. unfold get_units. rewrite i8_ok by lia. mret. apply get_out. lia. Qed.

Lemma digit_sum_units m z : 0 <= z <= 162 -> (exists u, (x <- i8 m z ;; get_units m x) = Ret u) -> z <= 119.
Proof.
  intros H [u E]. destruct (Z.le_gt_cases z 119) as [L|L]; [exact L|exfalso].
  destruct (Z.le_gt_cases z 127) as [L2|L2].
  - rewrite i8_ok in E by lia. revert E. mret.
    assert (D : z = 120 \/ z = 121 \/ z = 122 \/ z = 123 \/ z = 124 \/ z = 125 \/ z = 126 \/ z = 127) by lia.
    destruct m, D as [->|[->|[->|[->|[->|[->|[->| ->]]]]]]]; vm_compute; discriminate.
  - unfold i8, chk in E. replace ((-128 <=? z) && (z <=? 127)) with false in E by lia.
    destruct m; [discriminate|]. revert E. mret. rewrite get_units_neg by (change (127 - -128 + 1) with 256; lia). discriminate.
Qed.

Lemma mul_abs_sums m a b r0 o : wf a -> wf b -> mul_abs m a b r0 = Ret o ->
  int_digits a + int_digits b <= 119 /\ frac_digits a + frac_digits b <= 119.
Proof.
  intros Ha Hb H. pose proof (wf_counts a Ha) as Ca. pose proof (wf_counts b Hb) as Cb.
  unfold mul_abs in H. cbv zeta in H. rewrite !intg_ok in H. unfold frac in H. fold (frac_digits a) (frac_digits b) in H.
  inv_bind H. inv_bind H. inv_bind H. inv_bind H.
  split; apply (digit_sum_units m); try lia.
  - exists x0. rewrite H0. mret. exact H1.
  - exists x2. rewrite H2. mret. exact H3.
Qed.

Lemma mul_row_short m A s rv r : 1 <= zlen A -> zlen A < s -> 
  mul_row m A 0 0 s rv r 0 (-1) = Ret (r, 0, zlen A - s - 1).
Proof.
  intros H L. rewrite mul_row_skip by (try lia; right; intros ->; cbn in H; lia). do 2 f_equal. lia.
Qed.

Lemma mul_abs_room m a b r0 o : wf a -> wf b -> 1 <= iu a + fu a -> 1 <= iu b + fu b -> mru a b <= 9 ->
  mul_abs m a b r0 = Ret o -> msh a b <= iu a + fu a /\ (m = Debug -> msh a b < iu a + fu a).
Proof.
  intros Ha Hb Na Nb Hr H. pose proof (wf_counts a Ha) as Ca. pose proof (wf_counts b Hb) as Cb.
  destruct (mul_abs_sums m a b r0 o Ha Hb H) as [Hi Hf].
  rewrite mul_abs_eq in H by assumption. destruct (Z.gtb_spec (mru a b) 9); [lia|].
  pose proof (mul_shape a b Ha Hb Hr) as (S1 & S2 & S3 & S4 & S5 & _).
  set (B := firstn (Z.to_nat (iu b + fu b)) (fd_lsu b)) in *. set (A := firstn (Z.to_nat (iu a + fu a)) (fd_lsu a)) in *.
  assert (LA : zlen A = iu a + fu a) by (subst A; rewrite zlen_firstn, wf_zlen by assumption; lia).
  assert (LB : zlen B = iu b + fu b) by (subst B; rewrite zlen_firstn, wf_zlen by assumption; lia).
  assert (UA : uok A) by (apply Forall_firstn, wf_uok, Ha). assert (UB : uok B) by (apply Forall_firstn, wf_uok, Hb).
  clearbody A B. destruct B as [|rv B]; [cbn in LB; lia|].
  apply uok_cons in UB. destruct UB as [Hrv UB].
  apply bind_inv in H. destruct H as ([rs r'] & H & _). cbn [mul_rows] in H.
  destruct (Z.lt_ge_cases (iu a + fu a) (msh a b)) as [L|L].
  { exfalso. rewrite mul_row_short in H by lia. rewrite bind_Ret in H.
    apply bind_inv in H. destruct H as (u & _ & H). change MAX_UNITS with 9 in H.
    replace (zlen A - msh a b - 1 + 1 <? 9) with true in H by lia.
    rewrite set_out in H by lia. discriminate. }
  split; [exact L|]. intros ->.
  destruct (mul_row_ok Debug A 0 (msh a b) rv zero_units UA ltac:(apply uok_repeat0) Hrv) as (r1 & c1 & E1 & _);
    try (rewrite ?LA, ?zlen_zero_units; lia).
  rewrite E1 in H. rewrite bind_Ret in H. apply bind_inv in H. destruct H as (u & H & _).
  apply debug_assert_inv in H; [|reflexivity]. lia.
Qed.

(** ** [mul_to] *)

Definition mul_fits (m : build) (a b : fd) : Prop :=
  int_digits a + int_digits b <= 119 /\ frac_digits a + frac_digits b <= 119 /\
  (9 < mru a b \/ msh a b < iu a + fu a \/ (m = Release /\ msh a b = iu a + fu a)).

Lemma nonzero_units d : wf d -> clean d -> is_zero d = false -> 1 <= iu d + fu d.
Proof.
  intros H C Z. pose proof (is_zero_false d H C Z) as M. pose proof (magnitude_bound d H) as B.
  pose proof (wf_counts d H). destruct (Z.eq_dec (iu d + fu d) 0) as [E|E]; [|lia].
  rewrite E in B. rewrite Z.pow_0_r in B. lia.
Qed.

Lemma mul_abs_run m a b r0 : wf a -> wf b -> clean a -> clean b -> tight a -> tight b ->
  is_zero a = false -> is_zero b = false ->
  (mul_fits m a b -> (9 < mru a b /\ mul_abs m a b r0 = Ret (Err Overflow, set_zero r0)) \/
     (mru a b <= 9 /\ exists d, mul_abs m a b r0 = Ret (Ok tt, d) /\ mul_result a b d)) /\
  (returns (mul_abs m a b r0) -> mul_fits m a b).
Proof.
  intros Ha Hb Ca Cb Ta Tb Za Zb.
  pose proof (nonzero_units a Ha Ca Za) as Na. pose proof (nonzero_units b Hb Cb Zb) as Nb.
  split.
  - intros (Hi & Hf & H). destruct (Z.lt_ge_cases 9 (mru a b)) as [L|L].
    + left. split; [exact L|]. rewrite mul_abs_eq by assumption. destruct (Z.gtb_spec (mru a b) 9); [reflexivity|lia].
    + right. split; [exact L|]. apply mul_abs_ok; auto; [lia|]. intros ->. destruct H as [?|[?|[? ?]]]; [lia|assumption|discriminate].
  - intros [o E]. destruct (mul_abs_sums m a b r0 o Ha Hb E) as [Hi Hf]. split; [exact Hi|]. split; [exact Hf|].
    destruct (Z.lt_ge_cases 9 (mru a b)) as [L|L]; [auto|].
    destruct (mul_abs_room m a b r0 o Ha Hb Na Nb L E) as [R1 R2].
    destruct m; [specialize (R2 eq_refl); auto|]. destruct (Z.eq_dec (msh a b) (iu a + fu a)); [right; right; auto|right; left; lia].
Qed.

Lemma fu_frac d : wf d -> 0 <= 9 * fu d - frac_digits d < 9.
Proof. intros H. pose proof (wf_counts d H) as C. unfold fu, units_for in *. lia. Qed.

(** Without hidden digits and with room for all fractional digits, nothing is lost. *)
Lemma mul_error_zero a b d : wf a -> wf b -> mru a b <= 9 -> mul_result a b d -> nohidden a -> nohidden b ->
  frac_digits a + frac_digits b <= 9 * mrf a b ->
  mul_error a b (magnitude d) = 0 /\ (10 ^ (9 * mrf a b - (frac_digits a + frac_digits b)) | magnitude d).
Proof.
  intros Ha Hb Hr (W & C & T & Hn & Ii & Iu & Fu & Hfr & E0 & E1 & E2 & _) Na Nb L.
  pose proof (fu_frac a Ha) as Ca. pose proof (fu_frac b Hb) as Cb.
  pose proof (wf_counts a Ha) as Ca'. pose proof (wf_counts b Hb) as Cb'.
  pose proof (mul_shape a b Ha Hb Hr) as (S1 & S2 & S3 & S4 & S5 & S6 & S7).
  unfold mul_error in *.
  remember (magnitude a) as Ma. remember (magnitude b) as Mb. remember (magnitude d) as Md.
  set (g := frac_digits a + frac_digits b) in *.
  unfold nohidden in *. rewrite <- HeqMa in Na. rewrite <- HeqMb in Nb.
  apply Z.mod_divide in Na; [|apply Z.pow_nonzero; [lia|apply Ca]].
  apply Z.mod_divide in Nb; [|apply Z.pow_nonzero; [lia|apply Cb]].
  destruct Na as [qa Qa]. destruct Nb as [qb Qb].
  assert (Hs : msh a b = 0 \/ msh a b = 1).
  { assert (Hg : mrf a b = units_for g) by (unfold mrf in *; fold g in L |- *; clear - L; unfold units_for in *; lia).
    pose proof (units_for_add (frac_digits a) (frac_digits b) ltac:(clear - Ca'; lia) ltac:(clear - Cb'; lia)) as U.
    fold g in U. fold (fu a) (fu b) in U. unfold msh. clear - U Hg. lia. }
  assert (Sg : 0 <= 9 * mrf a b - g) by (clear - L; lia).
  assert (P : Ma * Mb = qa * qb * (10 ^ (9 * mrf a b - g) * base ^ msh a b)).
  { rewrite Qa, Qb. rewrite (pow10_base (msh a b)) by exact S4. rewrite <- Z.pow_add_r by (clear - Sg S4; lia).
    replace (9 * mrf a b - g + 9 * msh a b) with ((9 * fu a - frac_digits a) + (9 * fu b - frac_digits b)) by (subst g; unfold msh; clear; lia).
    rewrite (Z.pow_add_r 10) by (clear - Ca Cb; lia). ring. }
  assert (EE : Ma * Mb - base ^ msh a b * Md = 0).
  { destruct Hs as [Hs|Hs]; [auto|]. specialize (E2 Hs). rewrite P in *. rewrite Hs in *. rewrite Z.pow_1_r in *.
    set (K := qa * qb) in *. set (G := 10 ^ (9 * mrf a b - g)) in *. clearbody K G. clear - E0 E2.
    replace (K * (G * base) - base * Md) with (base * (K * G - Md)) in * by ring.
    set (x := K * G - Md) in *. clearbody x. unfold base in *. lia. }
  split; [exact EE|]. exists (qa * qb).
  pose proof (pow_base_pos (msh a b) S4) as Ps. rewrite P in EE.
  apply (Z.mul_cancel_l _ _ (base ^ msh a b)); [clear - Ps; lia|]. rewrite <- (Z.add_0_r (base ^ msh a b * Md)), <- EE. ring.
Qed.

Lemma mul_nohidden a b d : wf a -> wf b -> mru a b <= 9 -> mul_result a b d -> nohidden a -> nohidden b -> nohidden d.
Proof.
  intros Ha Hb Hr R Na Nb. pose proof (mul_error_zero a b d Ha Hb Hr R Na Nb) as Z0.
  destruct R as (W & C & T & Hn & Ii & Iu & Fu & Hfr & _).
  unfold nohidden. unfold frac_digits at 1. rewrite Hfr, Fu.
  set (g := frac_digits a + frac_digits b) in *.
  destruct (Z.le_gt_cases (9 * mrf a b) g) as [L|L].
  { rewrite Z.min_r by exact L. rewrite Z.sub_diag, Z.pow_0_r. apply Z.mod_1_r. }
  rewrite Z.min_l by (clear - L; lia). destruct (Z0 ltac:(clear - L; lia)) as [_ D].
  apply Z.mod_divide; [apply Z.pow_nonzero; clear - L; lia|exact D].
Qed.
