(** * The leading units of every quotient that is returned. *)
From Coq Require Import ZArith List Bool Lia QArith Qabs Qround.
From Coq Require Import ZifyBool ZifyNat.
From Verif Require Import Rust Tables Model_Base Model_Cmp Model_Arith Spec Spec_Div Spec_Lead Lib QLib Cmp AddSub Sign Mul DivBasics Div Div2 Div3 Div4 Div5 DivQ DivG DivG2 Robust Robust2 DivP.
Import ListNotations.
Open Scope Z_scope.
Ltac Zify.zify_post_hook ::= Z.div_mod_to_equations.

Lemma group_near X Y : 0 < Y -> X mod (Y * base) / Y = X mod (Y * base) * base / (Y * base).
Proof. intros H. rewrite Z.div_mul_cancel_r; [reflexivity|lia|unfold base; lia]. Qed.

Lemma body_prefix m a b lnz rnz F U ig K r : wf a -> wf b -> lead2 a b lnz rnz -> 1 <= rnz -> tame_tail K a b -> (m = Debug \/ group (value a / value b) K <= 999999998) ->
  0 <= F <= 4 -> K <= F -> let n := F + qk a b lnz rnz + b2z (qge a b lnz rnz) in n <= U -> 0 <= U <= 9 -> U = Z.max 0 (exp_of a b lnz rnz) + F -> F - K < n ->
  div_body m (fd_lsu a) (fd_lsu b) zero_units lnz rnz (qge a b lnz rnz) U F ig n = Ret (Ok tt, mkfd (as_i8 ig) (9 * F) r) ->
  (forall k, F - K <= k < n -> 0 <= zn r k < base) /\ sg r (F - K) (n - (F - K)) = Qfloor (Qabs (value a / value b) * pow10 (9 * K)).
Proof.
  intros Ha Hb L R0 TM HM HF HK n HnU HU EU HnJ H.
  assert (EJ : exists J, J = F - K) by eauto. destruct EJ as (J & EJ). rewrite <- EJ in *. assert (HJ : 0 <= J) by (clear - EJ HK; lia).
  assert (N : 0 < n) by (clear - HJ HnJ; clearbody n; lia).
  assert (Room : U + lnz + 1 < 18 \/ qge a b lnz rnz = false).
  { pose proof (l2_a0 a b lnz rnz L) as A0. pose proof (wf_counts a Ha) as CA. destruct (Z.lt_ge_cases (U + lnz + 1) 18) as [?|X]; [auto|]. destruct (qge a b lnz rnz); [|auto].
    exfalso. refine (body_no_room m _ _ _ lnz rnz U F ig n _ R0 _ N H). clear - X HU A0 CA. lia. }
  revert H. pose proof (wf_counts a Ha) as CA. pose proof (wf_counts b Hb) as CB.
  pose proof (wf_zlen a Ha) as LA. pose proof (wf_zlen b Hb) as LB. pose proof (wf_uok a Ha) as Ua. pose proof (wf_uok b Hb) as Ub.
  pose proof (quotient_lt a b lnz rnz L) as QL.
  pose proof (exp_bounds a b lnz rnz Ha Hb L) as EBd. cbv zeta in EBd. destruct EBd as [XB1 XB2].
  pose proof (l2_am a b lnz rnz L) as EA. pose proof (l2_bm a b lnz rnz L) as EB. pose proof (l2_ap a b lnz rnz L) as PA. pose proof (l2_bp a b lnz rnz L) as PB.
  pose proof (l2_a0 a b lnz rnz L) as A0. pose proof (l2_b0 a b lnz rnz L) as B0. pose proof (l2_bt a b lnz rnz L) as TB. pose proof (l2_at a b lnz rnz L) as TA.
  assert (En : n = F + exp_of a b lnz rnz) by (unfold n, exp_of; clear; lia). set (g := qge a b lnz rnz) in *.
  assert (Ek : exp_of a b lnz rnz = lnz - fu a - (rnz - fu b) + b2z g) by reflexivity.
  set (y := zn (fd_lsu b) rnz) in *. pose proof (nf_facts y PB) as NF. cbv zeta in NF. destruct NF as (N1 & N2 & _). pose proof (nf_half y PB) as N3.
  unfold div_body. replace (rnz =? 0) with false by (clear - R0; lia). cbv zeta. fold y.
  rewrite i64_ok by (clear - PB; unfold base in *; lia). mret. change UNIT with base. rewrite i64_div_ok by (clear - PB; unfold base in *; lia). mret.
  set (nf := base / (y + 1)) in *. clearbody nf.
  set (la := firstn (Z.to_nat (lnz + 1)) (fd_lsu a)). set (lb := firstn (Z.to_nat (rnz + 1)) (fd_lsu b)).
  assert (Ela : sg la 0 (lnz + 1) = magnitude a) by (unfold la; rewrite sg_firstn by (clear - A0; lia); symmetry; exact EA).
  assert (Elb : sg lb 0 (rnz + 1) = magnitude b) by (unfold lb; rewrite sg_firstn by (clear - B0; lia); symmetry; exact EB).
  assert (NB : magnitude b <> 0).
  { pose proof (pow_base_pos rnz ltac:(clear - R0; lia)) as P. clear - P TB PB. set (Q := base ^ rnz) in *. clearbody Q. nia. }
  pose proof (magnitude_nonneg b Hb) as NB0. pose proof (magnitude_nonneg a Ha) as NA0.
  assert (GM : forall k s t, 0 <= s -> 0 <= t -> s - t = k - 1 + fu b - fu a -> _) by (intros k s t X1 X2 X3; exact (group_mod a b k s t Ha Hb NB X1 X2 X3)).
  destruct TM as (TM1 & TM2).
  pose proof (abs_mag10 b Hb) as AB.
  assert (EAB : exists A B, A = magnitude a /\ B = magnitude b) by eauto. destruct EAB as (A & B & EA' & EB'). rewrite <- EA', <- EB' in *.
  pose proof (pow_base_pos lnz ltac:(clear - A0; lia)) as Pl. pose proof (pow_base_pos rnz ltac:(clear - R0; lia)) as Pr.
  assert (HnB : nf * B < base ^ (rnz + 1)).
  { rewrite base_S by (clear - R0; lia). clear - TB N1 N2 Pr. set (P := base ^ rnz) in *. clearbody P.
    apply Z.lt_le_trans with (nf * (P * (y + 1))); [apply Z.mul_lt_mono_pos_l; lia|]. replace (nf * (P * (y + 1))) with (nf * (y + 1) * P) by ring.
    apply Z.mul_le_mono_nonneg_r; lia. }
  assert (HnA : g = false -> nf * A < base ^ (lnz + 1)).
  { intros G. rewrite G in QL. cbn [b2z] in QL. rewrite Z.add_0_r in QL. rewrite base_S in * by (clear - A0 B0; lia).
    apply (Z.mul_lt_mono_pos_r (base ^ rnz)); [exact Pr|]. clear - QL HnB N1 Pl Pr. set (P := base ^ rnz) in *. set (T := base ^ lnz) in *. clearbody P T.
    apply Z.lt_trans with (nf * (B * T)); [replace (nf * A * P) with (nf * (A * P)) by ring; apply Z.mul_lt_mono_pos_l; lia|].
    replace (nf * (B * T)) with (nf * B * T) by ring. replace (base * T * P) with (base * P * T) by ring. apply Z.mul_lt_mono_pos_r; lia. }
  assert (Ula : uok la) by (apply Forall_firstn, Ua). assert (Ulb : uok lb) by (apply Forall_firstn, Ub).
  assert (Lla : zlen la = lnz + 1) by (unfold la; rewrite zlen_firstn; clear - A0 LA CA; lia).
  assert (Llb : zlen lb = rnz + 1) by (unfold lb; rewrite zlen_firstn; clear - B0 LB CB; lia).
  assert (Rm : U + lnz + 1 < 18 \/ nf * sg la 0 (lnz + 1) < base ^ (lnz + 1)).
  { rewrite Ela. destruct Room as [?|G]; [left; assumption|right; auto]. }
  assert (Rb : nf * sg lb 0 (rnz + 1) < base ^ (rnz + 1)) by (rewrite Elb; exact HnB).
  destruct (norm_bufs_ok m nf la lb U lnz rnz Ula Ulb N1 HU ltac:(clear - A0 CA; lia) ltac:(clear - B0 CB; lia) Lla Llb Rb Rm)
    as (buf1 & buf2 & E & U1 & L1 & E1 & U2 & L2 & E2).
  clear Rm Rb Lla Llb Ula Ulb.
  rewrite E. mret. rewrite Ela in E1. rewrite Elb in E2. clear E Ela Elb la lb.
  rewrite !get_ok by (clear - B0 CB L2 R0; lia). mret. mret.
  replace (as_i8 (F * DIGITS_PER_UNIT)) with (9 * F) by (change DIGITS_PER_UNIT with 9; rewrite as_i8_id by (clear - HF; lia); clear; lia).
  set (b2 := firstn (Z.to_nat (rnz + 1)) buf2).
  assert (Ub2 : uok b2) by (apply Forall_firstn, U2). assert (Lb2 : zlen b2 = rnz + 1) by (unfold b2; rewrite zlen_firstn, L2; clear - B0 CB; lia).
  assert (Eb2 : sg b2 0 (rnz + 1) = nf * B) by (unfold b2; rewrite sg_firstn by (clear - R0; lia); exact E2).
  assert (Zb2 : forall k, 0 <= k <= rnz -> zn b2 k = zn buf2 k) by (intros k Hk; unfold b2; rewrite zn_firstn by (clear - Hk; lia); replace (k <? Z.of_nat (Z.to_nat (rnz + 1))) with true by (clear - Hk; lia); reflexivity).
  pose proof (Zb2 rnz ltac:(clear - R0; lia)) as Z0. pose proof (Zb2 (rnz - 1) ltac:(clear - R0; lia)) as Z1.
  set (d0 := zn buf2 rnz) in *. set (d1 := zn buf2 (rnz - 1)) in *. pose proof (uok_zn buf2 rnz U2) as Bd0. fold d0 in Bd0.
  assert (Hd0 : base <= 2 * d0).
  { pose proof (top_bounds buf2 rnz U2 ltac:(clear - R0; lia)) as [_ T]. fold d0 in T. rewrite E2 in T.
    assert (X : nf * y < d0 + 1); [|clear - X N3; lia]. apply (Z.mul_lt_mono_pos_l (base ^ rnz)); [exact Pr|].
    eapply Z.le_lt_trans; [|exact T]. replace (base ^ rnz * (nf * y)) with (nf * (base ^ rnz * y)) by ring. apply Z.mul_le_mono_nonneg_l; [clear - N1; lia|apply TB]. }
  (* the window *)
  set (i := U + lnz + (if g then 0 else -1)).
  assert (Gi : i = U + lnz + b2z g - 1) by (unfold i, b2z; clear; destruct g; lia). assert (Hg : 0 <= b2z g <= 1) by (clear; destruct g; cbn; lia). clearbody i.
  assert (Ep : exists p, p = U - F + fu a - fu b) by eauto. destruct Ep as (p & Ep).
  assert (Ipn : i = p + rnz + (Z.of_nat (Z.to_nat n) - 1)) by (rewrite Gi, Ep, Z2Nat.id by (clear - N; clearbody n; lia); rewrite En, Ek; clear; lia).
  assert (Zn : Z.of_nat (Z.to_nat n) = n) by (clear - N; clearbody n; lia).
  assert (Hi : i + 1 < 18) by (rewrite Gi; destruct Room as [Q|Q]; [|rewrite Q; cbn [b2z]]; clear - Q Hg HU A0 CA; lia).
  assert (Hi0 : 0 <= i + 1) by (clear - Gi Hg HU A0; lia). assert (Hlg : 0 <= lnz + b2z g) by (clear - Hg A0; lia).
  assert (Hp : 0 <= p + rnz) by (rewrite Ep; clear - Ek En HnU A0 Hg HF EU; clearbody n; lia).
  assert (Ez : exists z, z = Z.max 0 (- p)) by eauto. destruct Ez as (z & Ez).
  assert (Hz : 0 <= z) by (clear - Ez; lia). assert (Hzp : 0 <= z + p) by (clear - Ez; lia).
  pose proof (pow_base_pos z Hz) as Pz. pose proof (pow_base_pos U (proj1 HU)) as PU.
  assert (QR : nf * A * base ^ U * base ^ rnz < nf * B * base ^ (i + 1)).
  { replace (i + 1) with (lnz + b2z g + U) by (clear - Gi; lia). rewrite (base_pow_split (lnz + b2z g)) by (clear - Hlg HU; lia).
    replace (nf * A * base ^ U * base ^ rnz) with (nf * (A * base ^ rnz * base ^ U)) by ring. replace (nf * B * (base ^ (lnz + b2z g) * base ^ U)) with (nf * (B * base ^ (lnz + b2z g) * base ^ U)) by ring.
    apply Z.mul_lt_mono_pos_l; [clear - N1; lia|]. apply Z.mul_lt_mono_pos_r; [exact PU|exact QL]. }
  assert (ES : sg buf1 0 (i + 2) = nf * A * base ^ U).
  { rewrite (sg_top buf1 (i + 2) 18 U1 ltac:(clear - Hi Hi0; lia)); rewrite E1; [ring|]. replace (base ^ U * (nf * A)) with (nf * A * base ^ U) by ring.
    apply (Z.mul_lt_mono_pos_r (base ^ rnz)); [exact Pr|]. eapply Z.lt_trans; [exact QR|]. replace (i + 2) with (i + 1 + 1) by (clear; lia). rewrite (base_S (i + 1)) by exact Hi0.
    pose proof (pow_base_pos (i + 1) Hi0) as Pi. replace (base * base ^ (i + 1) * base ^ rnz) with (base * base ^ rnz * base ^ (i + 1)) by ring. rewrite <- base_S by (clear - R0; lia). apply Z.mul_lt_mono_pos_r; [exact Pi|exact HnB]. }
  assert (HBp : 0 < B) by (clear - NB NB0; lia).
  assert (EW : nf * A * base ^ U * base ^ z = nf * (A * base ^ (U + z))) by (rewrite base_pow_split by (clear - HU Hz; lia); ring).
  assert (ED : forall j, dshift (nf * B) z p j = nf * (B * base ^ (z + p + j))) by (intros j; unfold dshift; ring).
  assert (PD : forall j, 0 <= j -> 0 < B * base ^ (z + p + j)) by (intros j J0; apply Z.mul_pos_pos; [exact HBp|apply pow_base_pos; clear - J0 Hzp; lia]).
  assert (WD : forall j, 0 <= j -> (nf * A * base ^ U * base ^ z) mod dshift (nf * B) z p j = nf * ((A * base ^ (U + z)) mod (B * base ^ (z + p + j)))).
  { intros j J0. rewrite EW, ED. apply mod_scale; [clear - N1; lia|apply PD, J0]. }
  assert (GU : forall j, J < j < n -> 10 * dshift (nf * B) z p j <= base * (dshift (nf * B) z p j - (nf * A * base ^ U * base ^ z) mod dshift (nf * B) z p j)).
  { intros j J0. rewrite WD, ED by (clear - J0 HJ; lia). assert (X : 10 * (B * base ^ (z + p + j)) <= base * (B * base ^ (z + p + j) - (A * base ^ (U + z)) mod (B * base ^ (z + p + j)))).
    { apply group_upper; [apply PD; clear - J0 HJ; lia|]. rewrite <- (GM (F - j + 1)) by (clear - J0 HJ HU Hz Hzp Ep; lia). apply TM1; [clear - J0 EJ; lia|].
      apply Qle_trans with (pow10 (9 * (exp_of a b lnz rnz - 1)) * pow10 (9 * (F - j + 1 - 1)))%Q; [|apply Qmult_le_compat_r; [exact XB1|apply Qlt_le_weak, pow10_pos]].
      rewrite <- pow10_add. change 1%Q with (pow10 0). apply pow10_mono. clear - J0 En. clearbody n. lia. }
    replace (base * (nf * (B * base ^ (z + p + j)) - nf * ((A * base ^ (U + z)) mod (B * base ^ (z + p + j))))) with (nf * (base * (B * base ^ (z + p + j) - (A * base ^ (U + z)) mod (B * base ^ (z + p + j))))) by ring.
    replace (10 * (nf * (B * base ^ (z + p + j)))) with (nf * (10 * (B * base ^ (z + p + j)))) by ring. apply Z.mul_le_mono_nonneg_l; [clear - N1; lia|exact X]. }
  assert (WN : 0 <= nf * A * base ^ U * base ^ z < dshift (nf * B) z p n).
  { rewrite EW, ED. split; [apply Z.mul_nonneg_nonneg; [clear - N1; lia|apply Z.mul_nonneg_nonneg; [exact NA0|apply Z.lt_le_incl, pow_base_pos; clear - HU Hz; lia]]|].
    apply Z.mul_lt_mono_pos_l; [clear - N1; lia|]. apply (Z.mul_lt_mono_pos_r (base ^ rnz)); [exact Pr|].
    replace (A * base ^ (U + z) * base ^ rnz) with (A * base ^ rnz * base ^ (U + z)) by ring. rewrite <- (Z.mul_assoc B), <- base_pow_split by (clear - Hzp R0 N; clearbody n; lia).
    replace (z + p + n + rnz) with (lnz + b2z g + (U + z)) by (rewrite En, Ek, Ep; clear; lia). rewrite (base_pow_split (lnz + b2z g)) by (clear - Hlg HU Hz; lia). rewrite Z.mul_assoc.
    apply Z.mul_lt_mono_pos_r; [apply pow_base_pos; clear - HU Hz; lia|exact QL]. }
  assert (EX : exists ex : bool, (ex = true -> (base ^ z | dshift (nf * B) z p 1)) /\ (ex = false -> forall j, J <= j < n ->
      ((0 = 0 /\ j = n - 1) \/ 36 * dshift (nf * B) z p j <= base * ((nf * A * base ^ U * base ^ z) mod dshift (nf * B) z p j)))).
  { destruct TM2 as [(E0 & Y & HE & HE' & HY)|TM2].
    - exists true. split; [intros _|discriminate].
      assert (LE : E0 <= U - F). { rewrite EU. destruct HE' as [->|HE']; [clear; lia|]. pose proof (Qle_lt_trans _ _ _ HE' XB2) as X. apply Qpow10_lt in X. clear - X. lia. }
      assert (AY : (inject_Z B * pow10 (9 * (fu a + E0 + 1 - fu b)) == inject_Z (Z.abs Y))%Q).
      { transitivity (Qabs (value b * pow10 (9 * (fu a + E0 + 1)))); [|rewrite HY; unfold Qabs, inject_Z; reflexivity].
        rewrite Qabs_Qmult, AB. rewrite (Qabs_pos (pow10 _)) by (apply Qlt_le_weak, pow10_pos). rewrite <- Qmult_assoc, <- pow10_add.
        replace (- (9 * fu b) + 9 * (fu a + E0 + 1)) with (9 * (fu a + E0 + 1 - fu b)) by (clear; lia). reflexivity. }
      assert (BY : B * base ^ (z + p + 1) = Z.abs Y * base ^ (z + (U - F - E0))).
      { assert (X : (inject_Z (B * base ^ (z + p + 1)) == inject_Z (Z.abs Y * base ^ (z + (U - F - E0))))%Q).
        { rewrite !inject_Z_mult, <- !pow10_base by (clear - Hzp Hz LE; lia). rewrite <- AY. rewrite <- Qmult_assoc, <- pow10_add.
          replace (9 * (fu a + E0 + 1 - fu b) + 9 * (z + (U - F - E0))) with (9 * (z + p + 1)) by (rewrite Ep; clear; lia). reflexivity. }
        unfold Qeq, inject_Z in X. cbn [Qnum Qden] in X. rewrite !Z.mul_1_r in X. exact X. }
      rewrite ED, BY. rewrite base_pow_split by (clear - Hz LE; lia). exists (nf * Z.abs Y * base ^ (U - F - E0)). ring.
    - exists false. split; [discriminate|]. intros _ j J0. destruct (Z.eq_dec j (n - 1)) as [J1|J1]; [left; auto|right].
      rewrite WD, ED by (clear - J0 HJ; lia). assert (X : 36 * (B * base ^ (z + p + j)) <= base * ((A * base ^ (U + z)) mod (B * base ^ (z + p + j)))).
      { apply group_lower; [apply PD; clear - J0 HJ; lia|]. rewrite <- (GM (F - j + 1)) by (clear - J0 HJ HU Hz Hzp Ep; lia). apply TM2; [clear - J0 EJ; lia|].
        apply Qle_trans with (pow10 (9 * (exp_of a b lnz rnz - 1)) * pow10 (9 * (F - j + 1 - 2)))%Q; [|apply Qmult_le_compat_r; [exact XB1|apply Qlt_le_weak, pow10_pos]].
        rewrite <- pow10_add. change 1%Q with (pow10 0). apply pow10_mono. clear - J0 J1 En. clearbody n. lia. }
      replace (base * (nf * ((A * base ^ (U + z)) mod (B * base ^ (z + p + j))))) with (nf * (base * ((A * base ^ (U + z)) mod (B * base ^ (z + p + j))))) by ring.
      replace (36 * (nf * (B * base ^ (z + p + j)))) with (nf * (36 * (B * base ^ (z + p + j)))) by ring. apply Z.mul_le_mono_nonneg_l; [clear - N1; lia|exact X]. }
  destruct EX as (ex & EX1 & EX2).
  intros H. apply bind_inv in H. destruct H as (r2 & Er & H). apply Ret_inj in H. assert (r2 = r) as -> by congruence. clear H.
  destruct (long_div_prefix m b2 rnz d0 d1 z p (nf * B) Ub2 Lb2 ltac:(clear - R0 B0 CB; lia) Eb2 Z0 Z1 Hd0 Hz Hzp Hp ex J HJ EX1 (Z.to_nat n) buf1 zero_units (nf * A * base ^ U * base ^ z) 0 r)
    as (_ & _ & _ & KB & Es).
  - rewrite Zn. exact HnJ.
  - exact U1.
  - apply uok_repeat0.
  - rewrite <- Ipn. exact Hi.
  - exact L1.
  - reflexivity.
  - rewrite Zn. clear - HnU HU. clearbody n. lia.
  - rewrite Zn. exact WN.
  - rewrite <- Ipn, ES. clear. lia.
  - clear. lia.
  - rewrite Zn. clear - HnU HU. clearbody n. lia.
  - intros _. reflexivity.
  - rewrite Zn. exact EX2.
  - rewrite Zn. exact GU.
  - destruct HM as [HM|HM]; [left; exact HM|right]. rewrite WD by (clear - HJ; lia). rewrite ED. rewrite Z.div_mul_cancel_l; [|pose proof (PD J HJ) as X; clear - X; lia|clear - N1; lia].
    rewrite (GM K (U + z) (z + p + (J + 1))) in HM by (clear - HJ HU Hz Hzp Ep EJ; lia).
    assert (EY : B * base ^ (z + p + (J + 1)) = B * base ^ (z + p + J) * base) by (replace (z + p + (J + 1)) with (z + p + J + 1) by (clear; lia); rewrite base_S by (clear - Hzp HJ; lia); ring).
    rewrite EY in *. rewrite group_near by (apply PD, HJ). clear - HM. unfold base in *. lia.
  - rewrite <- Ipn. exact Er.
  - rewrite Zn in KB, Es. split; [exact KB|]. rewrite Es, EW, ED. rewrite Z.div_mul_cancel_l; [|pose proof (PD J HJ) as X; clear - X; lia|clear - N1; lia].
    rewrite (floor_quotient_gen a b K (U + z) (z + p + J) Ha Hb) by first [rewrite <- EB'; exact NB|clear - HJ HU Hz Hzp Ep EJ; lia]. rewrite <- EA', <- EB'. reflexivity.
Qed.

Lemma sg_zeros l i n : (forall k, 0 <= k < n -> zn l (i + k) = 0) -> 0 <= n -> sg l i n = 0.
Proof.
  intros H Hn. revert H. pattern n. apply natlike_ind; [|clear n Hn; intros n Hn IH|exact Hn].
  - intros _. apply sg_nil. lia.
  - unfold Z.succ. intros H. rewrite sg_snoc by exact Hn. rewrite IH by (intros k Hk; apply H; lia). rewrite H by lia. ring.
Qed.
Lemma floor_below a b e K : (Qabs (value a / value b) < pow10 (9 * e))%Q -> K + e <= 0 -> Qfloor (Qabs (value a / value b) * pow10 (9 * K)) = 0.
Proof.
  intros H HK. set (q := Qabs (value a / value b)) in *. assert (P : (0 <= q)%Q) by apply Qabs_nonneg. clearbody q.
  assert (X : (0 <= q * pow10 (9 * K))%Q) by (apply Qmult_le_0_compat; [exact P|apply Qlt_le_weak, pow10_pos]).
  assert (Y : (q * pow10 (9 * K) < 1)%Q).
  { apply Qlt_le_trans with (pow10 (9 * e) * pow10 (9 * K))%Q; [apply Qmult_lt_compat_r; [apply pow10_pos|exact H]|].
    rewrite <- pow10_add. change 1%Q with (pow10 0). apply pow10_mono. lia. }
  pose proof (Qfloor_le (q * pow10 (9 * K))) as A. pose proof (Qlt_floor (q * pow10 (9 * K))) as B.
  set (f := Qfloor (q * pow10 (9 * K))) in *. clearbody f. 
  assert (A1 : (inject_Z f < inject_Z 1)%Q) by (eapply Qle_lt_trans; [exact A|exact Y]). assert (B1 : (inject_Z 0 < inject_Z (f + 1))%Q) by (eapply Qle_lt_trans; [exact X|exact B]).
  rewrite <- Zlt_Qlt in A1, B1. lia.
Qed.

(** The magnitude without its last units. *)
Lemma div_abs_prefix m a b res incr d K : wf a -> wf b -> magnitude a <> 0 -> magnitude b <> 0 -> div_abs m a b res incr = Ret (Ok tt, d) ->
  uok (fd_lsu d) -> K <= fu d -> tame_tail K a b -> (m = Debug \/ group (value a / value b) K <= 999999998) ->
  magnitude d / base ^ (fu d - K) = Qfloor (Qabs (value a / value b) * pow10 (9 * K)).
Proof.
  intros Ha Hb Na Nb H UD HK TM HM. destruct (div_plan_any m a b res incr _ Ha Hb Na Nb H) as (lnz & rnz & L & C).
  destruct C as [(O & E)|(F & O & BF & BU & BI & EU & E)]; [discriminate|].
  pose proof (wf_counts a Ha) as CA. pose proof (wf_counts b Hb) as CB. pose proof (l2_a0 a b lnz rnz L) as A0. pose proof (l2_b0 a b lnz rnz L) as B0.
  pose proof (exp_bounds a b lnz rnz Ha Hb L) as EBd. cbv zeta in EBd. destruct EBd as [_ XB2].
  assert (EX : F + qk a b lnz rnz + b2z (qge a b lnz rnz) = F + exp_of a b lnz rnz) by (unfold exp_of; clear; ring).
  assert (X : exists r, (Ok tt, d) = (Ok tt, mkfd (as_i8 (qig a b lnz rnz)) (9 * F) r) /\ loose m F (qig a b lnz rnz) (F + qk a b lnz rnz + b2z (qge a b lnz rnz)) r /\ (rnz = 0 -> sg r 0 (Z.max 0 (F + exp_of a b lnz rnz)) = quotient_units a b F)).
  { destruct (Z.eq_dec rnz 0) as [R|R].
    - destruct (body_short m a b lnz rnz F (Z.max 0 (exp_of a b lnz rnz) + F) (qig a b lnz rnz) Ha Hb L R BF) as (r & E' & W & Es); [rewrite EX; clear - BU; lia|].
      rewrite E' in E. apply Ret_inj in E. exists r. split; [symmetry; exact E|]. split; [|rewrite EX in Es; auto]. split; [apply ubelow_uok, W|]. split; [rewrite (wrote_zlen _ _ _ _ W); reflexivity|].
      intros k Hk. pose proof (wrote_sg _ _ _ _ k 1 W ltac:(clear - Hk; lia) ltac:(right; clear - Hk; lia)) as X. rewrite !sg_1 in X. rewrite X. unfold zero_units. apply zn_repeat0.
    - destruct (body_any m a b lnz rnz F (Z.max 0 (exp_of a b lnz rnz) + F) (qig a b lnz rnz) Ha Hb L ltac:(clear - R B0; lia) BF ltac:(rewrite EX; clear; lia) ltac:(clear - BU BF; lia) eq_refl) as [(r & E' & Lo)|(p & E' & _)];
        rewrite E' in E; [|discriminate]. apply Ret_inj in E. exists r. split; [symmetry; exact E|]. split; [exact Lo|]. intros R'. contradiction. }
  destruct X as (r & X & Lo & SH). assert (Ed : d = mkfd (as_i8 (qig a b lnz rnz)) (9 * F) r) by congruence. clear X.
  destruct (loose_intro m a b lnz rnz F r Ha Hb BF BU BI EU Lo) as (R1 & R2 & _ & R4 & R5). rewrite <- Ed in R1, R2, R4, R5. rewrite R5 in *.
  destruct Lo as (Ur & Lr & Z0). rewrite EX in Z0. assert (Er : fd_lsu d = r) by (rewrite Ed; reflexivity). rewrite Er in UD.
  rewrite magnitude_sg, R4, R5, Er. set (e := exp_of a b lnz rnz) in *.
  set (n := F + e) in *. set (U := Z.max 0 e + F) in *.
  assert (MS : sg r 0 U = sg r 0 (Z.max 0 n)).
  { replace U with (Z.max 0 n + (U - Z.max 0 n)) by (clear; lia). rewrite sg_app by (unfold U, n; clear - BF; lia). rewrite (sg_zeros r (0 + Z.max 0 n) (U - Z.max 0 n)); [ring| |unfold U, n; clear - BF; lia].
    intros k Hk. apply Z0. clear - Hk. lia. }
  rewrite MS. assert (EJ : exists J, J = F - K) by eauto. destruct EJ as (J & EJ). rewrite <- EJ. assert (HJ : 0 <= J) by (clear - EJ HK; lia).
  pose proof (pow_base_pos J HJ) as PJ.
  destruct (Z.le_gt_cases n J) as [NJ|NJ].
  - rewrite (floor_below a b e K XB2 ltac:(clear - NJ EJ; unfold n in *; lia)). apply Z.div_small.
    pose proof (sg_bound r 0 (Z.max 0 n) UD ltac:(clear; lia)) as B. split; [apply B|]. eapply Z.lt_le_trans; [apply B|]. apply Z.pow_le_mono_r; [reflexivity|clear - NJ HJ; lia].
  - replace (Z.max 0 n) with n in * by (clear - NJ HJ; lia).
    destruct (Z.eq_dec rnz 0) as [R|R].
    + rewrite (SH R). unfold quotient_units. pose proof (magnitude_nonneg b Hb) as NB. pose proof (pow_base_pos (fu a) ltac:(clear - CA; lia)) as Pa.
      assert (PB : 0 < magnitude b * base ^ fu a) by (apply Z.mul_pos_pos; [clear - NB Nb; lia|exact Pa]).
      rewrite Z.div_div by (clear - PB PJ; lia). rewrite <- Z.mul_assoc, <- base_pow_split by (clear - CA HJ; lia).
      symmetry. apply floor_quotient_gen; try assumption; [clear - BF CB; lia|clear - CA HJ; lia|rewrite EJ; clear; lia].
    + destruct (body_prefix m a b lnz rnz F U (qig a b lnz rnz) K r Ha Hb L ltac:(clear - R B0; lia) TM HM BF HK) as (_ & Es).
      * rewrite EX. unfold U. clear. lia.
      * unfold U. clear - BU BF. lia.
      * reflexivity.
      * rewrite EX, <- EJ. exact NJ.
      * rewrite E, Ed. reflexivity.
      * rewrite EX in Es. fold e n in Es. rewrite <- EJ in Es. rewrite <- Es.
        replace n with (J + (n - J)) at 1 by (clear; lia). rewrite sg_app by (clear - HJ NJ; lia). pose proof (sg_bound r 0 J UD HJ) as B. rewrite Z.add_0_l.
        rewrite (Z.mul_comm (base ^ J)), Z.div_add by (clear - PJ; lia). rewrite (Z.div_small (sg r 0 J)) by exact B. apply Z.add_0_l.
Qed.
