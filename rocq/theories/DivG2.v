(** * Division by any divisor, if the quotient is tame. *)
From Coq Require Import ZArith List Bool Lia QArith Qabs Qround.
From Coq Require Import ZifyBool ZifyNat.
From Verif Require Import Rust Tables Model_Base Model_Cmp Model_Arith Spec Spec_Div Lib Cmp AddSub Sign QLib Mul MulQ DivBasics Div Div2 Div3 Div4 Div5 DivQ DivG.
Import ListNotations.
Open Scope Z_scope.
Ltac Zify.zify_post_hook ::= Z.div_mod_to_equations.

Lemma floor_quotient_gen a b k s t : wf a -> wf b -> magnitude b <> 0 -> 0 <= s -> 0 <= t -> s - t = k + fu b - fu a ->
  Qfloor (Qabs (value a / value b) * pow10 (9 * k)) = magnitude a * base ^ s / (magnitude b * base ^ t).
Proof.
  intros Ha Hb Nb Hs Ht E0. pose proof (magnitude_nonneg b Hb). pose proof (pow_base_pos t Ht) as Pa.
  assert (PB : 0 < magnitude b * base ^ t) by (apply Z.mul_pos_pos; lia).
  assert (E : (Qabs (value a / value b) * pow10 (9 * k) == magnitude a * base ^ s # Z.to_pos (magnitude b * base ^ t))%Q).
  { apply (Qmult_inj_r _ _ (inject_Z (magnitude b * base ^ t))); [intros X; unfold Qeq in X; cbn in X; lia|].
    transitivity (inject_Z (magnitude a * base ^ s)).
    - rewrite !inject_Z_mult, <- !pow10_base by assumption.
      transitivity (Qabs (value a / value b) * inject_Z (magnitude b) * (pow10 (9 * k) * pow10 (9 * t)))%Q; [ring|].
      rewrite abs_quotient by assumption. rewrite <- pow10_add. rewrite <- Qmult_assoc, <- pow10_add. replace (9 * (fu b - fu a) + (9 * k + 9 * t)) with (9 * s) by (clear - E0; lia). reflexivity.
    - unfold Qeq, Qmult, inject_Z. cbn [Qnum Qden]. rewrite Pos.mul_1_r, Z2Pos.id by exact PB. ring. }
  rewrite E. unfold Qfloor. rewrite Z2Pos.id by exact PB. reflexivity.
Qed.

Lemma mod_group X Y : 0 < Y -> X * base / Y mod base = X mod Y * base / Y.
Proof.
  intros HY. pose proof (Z.div_mod X Y ltac:(lia)) as DM. pose proof (Z.mod_pos_bound X Y HY) as BM.
  set (q := X / Y) in *. set (r := X mod Y) in *. clearbody q r. rewrite DM.
  replace ((Y * q + r) * base) with (q * base * Y + r * base) by ring. rewrite Z.div_add_l by lia. rewrite Z.add_comm, Z.mod_add by discriminate.
  apply Z.mod_small. split; [apply Z.div_pos; [|exact HY]; unfold base; lia|]. apply Z.div_lt_upper_bound; [exact HY|]. unfold base. lia.
Qed.

Lemma group_mod a b k s t : wf a -> wf b -> magnitude b <> 0 -> 0 <= s -> 0 <= t -> s - t = k - 1 + fu b - fu a ->
  group (value a / value b) k = (magnitude a * base ^ s) mod (magnitude b * base ^ t) * base / (magnitude b * base ^ t).
Proof.
  intros Ha Hb Nb Hs Ht E0. unfold group. rewrite (floor_quotient_gen a b k (s + 1) t) by (try assumption; lia). rewrite base_S by lia.
  replace (magnitude a * (base * base ^ s)) with (magnitude a * base ^ s * base) by ring. apply mod_group.
  pose proof (magnitude_nonneg b Hb). apply Z.mul_pos_pos; [lia|apply pow_base_pos, Ht].
Qed.

(** A group in the middle keeps the remainder away from the ends. *)
Lemma group_upper X Y : 0 < Y -> X mod Y * base / Y <= 999999989 -> 10 * Y <= base * (Y - X mod Y).
Proof.
  intros HY H. pose proof (Z.mod_pos_bound X Y HY) as BM. set (r := X mod Y) in *. clearbody r.
  pose proof (Z.mul_succ_div_gt (r * base) Y HY) as G. set (g := r * base / Y) in *. clearbody g. unfold base in *.
  assert (r * 1000000000 < Y * 999999990) by nia. lia.
Qed.
Lemma group_lower X Y : 0 < Y -> 36 <= X mod Y * base / Y -> 36 * Y <= base * (X mod Y).
Proof.
  intros HY H. set (r := X mod Y) in *. clearbody r. pose proof (Z.mul_div_le (r * base) Y HY) as G. set (g := r * base / Y) in *. clearbody g. nia.
Qed.
Lemma mod_scale nf X Y : 0 < nf -> 0 < Y -> (nf * X) mod (nf * Y) = nf * (X mod Y).
Proof. intros H1 H2. rewrite Z.mul_mod_distr_l by lia. reflexivity. Qed.

Lemma body_gen m a b lnz rnz F U ig : wf a -> wf b -> lead2 a b lnz rnz -> 1 <= rnz -> tame F a b ->
  0 <= F <= 4 -> let n := F + qk a b lnz rnz + b2z (qge a b lnz rnz) in n <= U -> 0 <= U <= 9 -> U = Z.max 0 (exp_of a b lnz rnz) + F ->
  U + lnz + 1 < 18 \/ qge a b lnz rnz = false ->
  exists r, div_body m (fd_lsu a) (fd_lsu b) zero_units lnz rnz (qge a b lnz rnz) U F ig n = Ret (Ok tt, mkfd (as_i8 ig) (9 * F) r) /\
    wrote zero_units r 0 (Z.max 0 n) /\ sg r 0 (Z.max 0 n) = quotient_units a b F.
Proof.
  intros Ha Hb L R0 TM HF n HnU HU EU Room. pose proof (wf_counts a Ha) as CA. pose proof (wf_counts b Hb) as CB.
  pose proof (wf_zlen a Ha) as LA. pose proof (wf_zlen b Hb) as LB. pose proof (wf_uok a Ha) as Ua. pose proof (wf_uok b Hb) as Ub.
  pose proof (quotient_zero a b lnz rnz F L Ha Hb ltac:(clear - HF; lia)) as QZ.
  pose proof (quotient_lt a b lnz rnz L) as QL.
  pose proof (exp_bounds a b lnz rnz Ha Hb L) as EBd. cbv zeta in EBd. destruct EBd as [XB1 XB2].
  pose proof (l2_am a b lnz rnz L) as EA. pose proof (l2_bm a b lnz rnz L) as EB. pose proof (l2_ap a b lnz rnz L) as PA. pose proof (l2_bp a b lnz rnz L) as PB.
  pose proof (l2_a0 a b lnz rnz L) as A0. pose proof (l2_b0 a b lnz rnz L) as B0. pose proof (l2_bt a b lnz rnz L) as TB. pose proof (l2_at a b lnz rnz L) as TA.
  fold n in QZ. assert (En : n = F + exp_of a b lnz rnz) by (unfold n, exp_of; clear; lia). set (g := qge a b lnz rnz) in *.
  assert (Ek : exp_of a b lnz rnz = lnz - fu a - (rnz - fu b) + b2z g) by reflexivity.
  set (y := zn (fd_lsu b) rnz) in *. pose proof (nf_facts y PB) as NF. cbv zeta in NF. destruct NF as (N1 & N2 & N3).
  unfold div_body. replace (rnz =? 0) with false by (clear - R0; lia). cbv zeta. fold y.
  rewrite i64_ok by (clear - PB; unfold base in *; lia). mret. change UNIT with base. rewrite i64_div_ok by (clear - PB; unfold base in *; lia). mret.
  set (nf := base / (y + 1)) in *. clearbody nf.
  set (la := firstn (Z.to_nat (lnz + 1)) (fd_lsu a)). set (lb := firstn (Z.to_nat (rnz + 1)) (fd_lsu b)).
  assert (Ela : sg la 0 (lnz + 1) = magnitude a) by (unfold la; rewrite sg_firstn by (clear - A0; lia); symmetry; exact EA).
  assert (Elb : sg lb 0 (rnz + 1) = magnitude b) by (unfold lb; rewrite sg_firstn by (clear - B0; lia); symmetry; exact EB).
  assert (NB : magnitude b <> 0).
  { pose proof (pow_base_pos rnz ltac:(clear - R0; lia)) as P. clear - P TB PB. set (Q := base ^ rnz) in *. clearbody Q. nia. }
  pose proof (magnitude_nonneg b Hb) as NB0. pose proof (magnitude_nonneg a Ha) as NA0.
  assert (GM : forall k s t, 0 <= s -> 0 <= t -> s - t = k - 1 + fu b - fu a -> _) by (intros k s t X1 X2 X3; exact (group_mod a b k s t Ha Hb NB X1 X2 X3)).
  destruct TM as (TM1 & TM2).
  pose proof (abs_mag10 b Hb) as AB.
  assert (EAB : exists A B, A = magnitude a /\ B = magnitude b) by eauto. destruct EAB as (A & B & EA' & EB'). rewrite <- EA', <- EB' in *.
  pose proof (pow_base_pos lnz ltac:(clear - A0; lia)) as Pl. pose proof (pow_base_pos rnz ltac:(clear - R0; lia)) as Pr.
  assert (HnB : nf * B < base ^ (rnz + 1)).
  { rewrite base_S by (clear - R0; lia). clear - TB N1 N2 Pr. set (P := base ^ rnz) in *. clearbody P.
    apply Z.lt_le_trans with (nf * (P * (y + 1))); [apply Z.mul_lt_mono_pos_l; lia|]. replace (nf * (P * (y + 1))) with (nf * (y + 1) * P) by ring.
    apply Z.mul_le_mono_nonneg_r; lia. }
  assert (HnA : g = false -> nf * A < base ^ (lnz + 1)).
  { intros G. rewrite G in QL. cbn [b2z] in QL. rewrite Z.add_0_r in QL. rewrite base_S in * by (clear - A0 B0; lia).
    apply (Z.mul_lt_mono_pos_r (base ^ rnz)); [exact Pr|]. clear - QL HnB N1 Pl Pr. set (P := base ^ rnz) in *. set (T := base ^ lnz) in *. clearbody P T.
    apply Z.lt_trans with (nf * (B * T)); [replace (nf * A * P) with (nf * (A * P)) by ring; apply Z.mul_lt_mono_pos_l; lia|].
    replace (nf * (B * T)) with (nf * B * T) by ring. replace (base * T * P) with (base * P * T) by ring. apply Z.mul_lt_mono_pos_r; lia. }
  assert (Ula : uok la) by (apply Forall_firstn, Ua). assert (Ulb : uok lb) by (apply Forall_firstn, Ub).
  assert (Lla : zlen la = lnz + 1) by (unfold la; rewrite zlen_firstn; clear - A0 LA CA; lia).
  assert (Llb : zlen lb = rnz + 1) by (unfold lb; rewrite zlen_firstn; clear - B0 LB CB; lia).
  assert (Rm : U + lnz + 1 < 18 \/ nf * sg la 0 (lnz + 1) < base ^ (lnz + 1)).
  { rewrite Ela. destruct Room as [?|G]; [left; assumption|right; auto]. }
  assert (Rb : nf * sg lb 0 (rnz + 1) < base ^ (rnz + 1)) by (rewrite Elb; exact HnB).
  destruct (norm_bufs_ok m nf la lb U lnz rnz Ula Ulb N1 HU ltac:(clear - A0 CA; lia) ltac:(clear - B0 CB; lia) Lla Llb Rb Rm)
    as (buf1 & buf2 & E & U1 & L1 & E1 & U2 & L2 & E2).
  clear Rm Rb Lla Llb Ula Ulb.
  rewrite E. mret. rewrite Ela in E1. rewrite Elb in E2. clear E Ela Elb la lb.
  rewrite !get_ok by (clear - B0 CB L2 R0; lia). mret. mret.
  replace (as_i8 (F * DIGITS_PER_UNIT)) with (9 * F) by (change DIGITS_PER_UNIT with 9; rewrite as_i8_id by (clear - HF; lia); clear; lia).
  destruct (Z.le_gt_cases n 0) as [N|N].
  { replace (Z.to_nat n) with O by (clear - N; clearbody n; lia). cbn [long_div]. mret. exists zero_units. split; [reflexivity|]. replace (Z.max 0 n) with 0 by (clear - N; clearbody n; lia).
    split; [apply wrote_refl, uok_repeat0|]. rewrite sg_nil by (clear; lia). symmetry. apply QZ, N. }
  set (b2 := firstn (Z.to_nat (rnz + 1)) buf2).
  assert (Ub2 : uok b2) by (apply Forall_firstn, U2). assert (Lb2 : zlen b2 = rnz + 1) by (unfold b2; rewrite zlen_firstn, L2; clear - B0 CB; lia).
  assert (Eb2 : sg b2 0 (rnz + 1) = nf * B) by (unfold b2; rewrite sg_firstn by (clear - R0; lia); exact E2).
  assert (Zb2 : forall k, 0 <= k <= rnz -> zn b2 k = zn buf2 k) by (intros k Hk; unfold b2; rewrite zn_firstn by (clear - Hk; lia); replace (k <? Z.of_nat (Z.to_nat (rnz + 1))) with true by (clear - Hk; lia); reflexivity).
  pose proof (Zb2 rnz ltac:(clear - R0; lia)) as Z0. pose proof (Zb2 (rnz - 1) ltac:(clear - R0; lia)) as Z1.
  set (d0 := zn buf2 rnz) in *. set (d1 := zn buf2 (rnz - 1)) in *. pose proof (uok_zn buf2 rnz U2) as Bd0. fold d0 in Bd0.
  assert (Hd0 : base <= 4 * d0).
  { pose proof (top_bounds buf2 rnz U2 ltac:(clear - R0; lia)) as [_ T]. fold d0 in T. rewrite E2 in T.
    assert (X : nf * y < d0 + 1); [|clear - X N3 Bd0; lia]. apply (Z.mul_lt_mono_pos_l (base ^ rnz)); [exact Pr|].
    eapply Z.le_lt_trans; [|exact T]. replace (base ^ rnz * (nf * y)) with (nf * (base ^ rnz * y)) by ring. apply Z.mul_le_mono_nonneg_l; [clear - N1; lia|apply TB]. }
  (* the window *)
  set (i := U + lnz + (if g then 0 else -1)).
  assert (Gi : i = U + lnz + b2z g - 1) by (unfold i, b2z; clear; destruct g; lia). assert (Hg : 0 <= b2z g <= 1) by (clear; destruct g; cbn; lia). clearbody i.
  assert (Ep : exists p, p = U - F + fu a - fu b) by eauto. destruct Ep as (p & Ep).
  assert (Ipn : i = p + rnz + (Z.of_nat (Z.to_nat n) - 1)) by (rewrite Gi, Ep, Z2Nat.id by (clear - N; clearbody n; lia); rewrite En, Ek; clear; lia).
  assert (Zn : Z.of_nat (Z.to_nat n) = n) by (clear - N; clearbody n; lia).
  assert (Hi : i + 1 < 18) by (rewrite Gi; destruct Room as [Q|Q]; [|rewrite Q; cbn [b2z]]; clear - Q Hg HU A0 CA; lia).
  assert (Hi0 : 0 <= i + 1) by (clear - Gi Hg HU A0; lia). assert (Hlg : 0 <= lnz + b2z g) by (clear - Hg A0; lia).
  assert (Hp : 0 <= p + rnz) by (rewrite Ep; clear - Ek En HnU A0 Hg HF EU; clearbody n; lia).
  assert (Ez : exists z, z = Z.max 0 (- p)) by eauto. destruct Ez as (z & Ez).
  assert (Hz : 0 <= z) by (clear - Ez; lia). assert (Hzp : 0 <= z + p) by (clear - Ez; lia).
  pose proof (pow_base_pos z Hz) as Pz. pose proof (pow_base_pos U (proj1 HU)) as PU.
  assert (QR : nf * A * base ^ U * base ^ rnz < nf * B * base ^ (i + 1)).
  { replace (i + 1) with (lnz + b2z g + U) by (clear - Gi; lia). rewrite (base_pow_split (lnz + b2z g)) by (clear - Hlg HU; lia).
    replace (nf * A * base ^ U * base ^ rnz) with (nf * (A * base ^ rnz * base ^ U)) by ring. replace (nf * B * (base ^ (lnz + b2z g) * base ^ U)) with (nf * (B * base ^ (lnz + b2z g) * base ^ U)) by ring.
    apply Z.mul_lt_mono_pos_l; [clear - N1; lia|]. apply Z.mul_lt_mono_pos_r; [exact PU|exact QL]. }
  assert (ES : sg buf1 0 (i + 2) = nf * A * base ^ U).
  { rewrite (sg_top buf1 (i + 2) 18 U1 ltac:(clear - Hi Hi0; lia)); rewrite E1; [ring|]. replace (base ^ U * (nf * A)) with (nf * A * base ^ U) by ring.
    apply (Z.mul_lt_mono_pos_r (base ^ rnz)); [exact Pr|]. eapply Z.lt_trans; [exact QR|]. replace (i + 2) with (i + 1 + 1) by (clear; lia). rewrite (base_S (i + 1)) by exact Hi0.
    pose proof (pow_base_pos (i + 1) Hi0) as Pi. replace (base * base ^ (i + 1) * base ^ rnz) with (base * base ^ rnz * base ^ (i + 1)) by ring. rewrite <- base_S by (clear - R0; lia). apply Z.mul_lt_mono_pos_r; [exact Pi|exact HnB]. }
  assert (HBp : 0 < B) by (clear - NB NB0; lia).
  assert (EW : nf * A * base ^ U * base ^ z = nf * (A * base ^ (U + z))) by (rewrite base_pow_split by (clear - HU Hz; lia); ring).
  assert (ED : forall j, dshift (nf * B) z p j = nf * (B * base ^ (z + p + j))) by (intros j; unfold dshift; ring).
  assert (PD : forall j, 0 <= j -> 0 < B * base ^ (z + p + j)) by (intros j J; apply Z.mul_pos_pos; [exact HBp|apply pow_base_pos; clear - J Hzp; lia]).
  assert (WD : forall j, 0 <= j -> (nf * A * base ^ U * base ^ z) mod dshift (nf * B) z p j = nf * ((A * base ^ (U + z)) mod (B * base ^ (z + p + j)))).
  { intros j J. rewrite EW, ED. apply mod_scale; [clear - N1; lia|apply PD, J]. }
  assert (GU : forall j, 1 <= j <= n -> 10 * dshift (nf * B) z p j <= base * (dshift (nf * B) z p j - (nf * A * base ^ U * base ^ z) mod dshift (nf * B) z p j)).
  { intros j J. rewrite WD, ED by (clear - J; lia). assert (X : 10 * (B * base ^ (z + p + j)) <= base * (B * base ^ (z + p + j) - (A * base ^ (U + z)) mod (B * base ^ (z + p + j)))).
    { apply group_upper; [apply PD; clear - J; lia|]. rewrite <- (GM (F - j + 1)) by (clear - J HU Hz Hzp Ep; lia). apply TM1. clear - J. lia. }
    replace (base * (nf * (B * base ^ (z + p + j)) - nf * ((A * base ^ (U + z)) mod (B * base ^ (z + p + j))))) with (nf * (base * (B * base ^ (z + p + j) - (A * base ^ (U + z)) mod (B * base ^ (z + p + j))))) by ring.
    replace (10 * (nf * (B * base ^ (z + p + j)))) with (nf * (10 * (B * base ^ (z + p + j)))) by ring. apply Z.mul_le_mono_nonneg_l; [clear - N1; lia|exact X]. }
  assert (WN : 0 <= nf * A * base ^ U * base ^ z < dshift (nf * B) z p n).
  { rewrite EW, ED. split; [apply Z.mul_nonneg_nonneg; [clear - N1; lia|apply Z.mul_nonneg_nonneg; [exact NA0|apply Z.lt_le_incl, pow_base_pos; clear - HU Hz; lia]]|].
    apply Z.mul_lt_mono_pos_l; [clear - N1; lia|]. apply (Z.mul_lt_mono_pos_r (base ^ rnz)); [exact Pr|].
    replace (A * base ^ (U + z) * base ^ rnz) with (A * base ^ rnz * base ^ (U + z)) by ring. rewrite <- (Z.mul_assoc B), <- base_pow_split by (clear - Hzp R0 N; clearbody n; lia).
    replace (z + p + n + rnz) with (lnz + b2z g + (U + z)) by (rewrite En, Ek, Ep; clear; lia). rewrite (base_pow_split (lnz + b2z g)) by (clear - Hlg HU Hz; lia). rewrite Z.mul_assoc.
    apply Z.mul_lt_mono_pos_r; [apply pow_base_pos; clear - HU Hz; lia|exact QL]. }
  assert (EX : exists ex : bool, (ex = true -> (base ^ z | dshift (nf * B) z p 1)) /\ (ex = false -> forall j, 0 <= j < n ->
      ((0 = 0 /\ j = n - 1) \/ 36 * dshift (nf * B) z p j <= base * ((nf * A * base ^ U * base ^ z) mod dshift (nf * B) z p j)))).
  { destruct TM2 as [(E0 & Y & HE & HE' & HY)|TM2].
    - exists true. split; [intros _|discriminate].
      assert (LE : E0 <= U - F). { rewrite EU. destruct HE' as [->|HE']; [clear; lia|]. pose proof (Qle_lt_trans _ _ _ HE' XB2) as X. apply Qpow10_lt in X. clear - X. lia. }
      assert (AY : (inject_Z B * pow10 (9 * (fu a + E0 + 1 - fu b)) == inject_Z (Z.abs Y))%Q).
      { transitivity (Qabs (value b * pow10 (9 * (fu a + E0 + 1)))); [|rewrite HY; unfold Qabs, inject_Z; reflexivity].
        rewrite Qabs_Qmult, AB. rewrite (Qabs_pos (pow10 _)) by (apply Qlt_le_weak, pow10_pos). rewrite <- Qmult_assoc, <- pow10_add.
        replace (- (9 * fu b) + 9 * (fu a + E0 + 1)) with (9 * (fu a + E0 + 1 - fu b)) by (clear; lia). reflexivity. }
      assert (BY : B * base ^ (z + p + 1) = Z.abs Y * base ^ (z + (U - F - E0))).
      { assert (X : (inject_Z (B * base ^ (z + p + 1)) == inject_Z (Z.abs Y * base ^ (z + (U - F - E0))))%Q).
        { rewrite !inject_Z_mult, <- !pow10_base by (clear - Hzp Hz LE; lia). rewrite <- AY. rewrite <- Qmult_assoc, <- pow10_add.
          replace (9 * (fu a + E0 + 1 - fu b) + 9 * (z + (U - F - E0))) with (9 * (z + p + 1)) by (rewrite Ep; clear; lia). reflexivity. }
        unfold Qeq, inject_Z in X. cbn [Qnum Qden] in X. rewrite !Z.mul_1_r in X. exact X. }
      rewrite ED, BY. rewrite base_pow_split by (clear - Hz LE; lia). exists (nf * Z.abs Y * base ^ (U - F - E0)). ring.
    - exists false. split; [discriminate|]. intros _ j J. destruct (Z.eq_dec j (n - 1)) as [J1|J1]; [left; auto|right].
      rewrite WD, ED by apply J. assert (X : 36 * (B * base ^ (z + p + j)) <= base * ((A * base ^ (U + z)) mod (B * base ^ (z + p + j)))).
      { apply group_lower; [apply PD, J|]. rewrite <- (GM (F - j + 1)) by (clear - J HU Hz Hzp Ep; lia). apply TM2; [clear - J; lia|].
        apply Qle_trans with (pow10 (9 * (exp_of a b lnz rnz - 1)) * pow10 (9 * (F - j + 1 - 2)))%Q; [|apply Qmult_le_compat_r; [exact XB1|apply Qlt_le_weak, pow10_pos]].
        rewrite <- pow10_add. change 1%Q with (pow10 0). apply pow10_mono. clear - J J1 En. lia. }
      replace (base * (nf * ((A * base ^ (U + z)) mod (B * base ^ (z + p + j))))) with (nf * (base * ((A * base ^ (U + z)) mod (B * base ^ (z + p + j))))) by ring.
      replace (36 * (nf * (B * base ^ (z + p + j)))) with (nf * (36 * (B * base ^ (z + p + j)))) by ring. apply Z.mul_le_mono_nonneg_l; [clear - N1; lia|exact X]. }
  destruct EX as (ex & EX1 & EX2).
  destruct (long_div_gen m b2 rnz d0 d1 z p (nf * B) Ub2 Lb2 R0 Eb2 Z0 Z1 Hd0 Hz Hzp Hp ex (Z.to_nat n) EX1 buf1 zero_units (nf * A * base ^ U * base ^ z) 0)
    as (r & Er & W & Es).
  - exact U1.
  - apply uok_repeat0.
  - rewrite <- Ipn, L1. exact Hi.
  - rewrite L1. clear - B0 CB. lia.
  - rewrite L1. clear. lia.
  - rewrite Zn, zlen_zero_units. clear - HnU HU. clearbody n. lia.
  - rewrite Zn. exact WN.
  - rewrite <- Ipn, ES. clear. lia.
  - clear. lia.
  - rewrite Zn. clear - HnU HU. clearbody n. lia.
  - intros _ _. reflexivity.
  - rewrite Zn. exact EX2.
  - rewrite Zn. intros j J. apply GU. clear - J. lia.
  - rewrite Zn. rewrite <- (Z.mod_small (nf * A * base ^ U * base ^ z) (dshift (nf * B) z p n)) by exact WN. apply GU. clear - N. clearbody n. lia.
  - rewrite <- Ipn in Er. rewrite Er. mret. exists r. split; [reflexivity|]. rewrite Zn in W, Es. replace (Z.max 0 n) with n by (clear - N; clearbody n; lia). split; [exact W|].
    rewrite Es, EW, ED. rewrite Z.div_mul_cancel_l; [|pose proof (PD 0 ltac:(clear; lia)) as X; clear - X; lia|clear - N1; lia].
    unfold quotient_units. rewrite <- EA', <- EB'. apply scale_eq; [exact HBp|clear - HU Hz Hzp HF CA CB; lia..|]. rewrite Ep. clear. lia.
Qed.

Lemma tame_mono F F' a b : F' <= F -> tame F a b -> tame F' a b.
Proof.
  intros H (T1 & T2). split; [intros k K; apply T1; lia|]. destruct T2 as [T2|T2]; [left; exact T2|right]. intros k K. apply T2. lia.
Qed.

Lemma long_good_tame m a b incr : wf a -> wf b -> tame (asked_units a b incr) a b -> long_good m a b incr.
Proof.
  intros Ha Hb T lnz rnz L R1 O F U n BF HnU HU Room. apply body_gen; try assumption; [|reflexivity].
  eapply tame_mono; [|exact T]. unfold F, qfu, asked_units. lia.
Qed.

Lemma long_good_either m a b incr : wf a -> wf b -> significant_units 2 b /\ (m = Debug -> significant_units 1 b) \/ tame (asked_units a b incr) a b -> long_good m a b incr.
Proof. intros Ha Hb [[S2 S1]|T]; [apply long_good_two|apply long_good_tame]; assumption. Qed.
Lemma long_good_release a b incr : wf a -> wf b -> significant_units 2 b \/ tame (asked_units a b incr) a b -> long_good Release a b incr.
Proof. intros Ha Hb [S2|T]; apply long_good_either; auto. left. split; [exact S2|discriminate]. Qed.

(** Deciding [tame] on literals. *)
Fixpoint groups_ok (lo hi : Z) (q : Q) (n : nat) (k : Z) : bool :=
  match n with O => true | S n' => (lo <=? group q k) && (group q k <=? hi) && groups_ok lo hi q n' (k + 1) end.
Lemma groups_ok_spec lo hi q n : forall k, groups_ok lo hi q n k = true -> forall j, k <= j < k + Z.of_nat n -> lo <= group q j <= hi.
Proof.
  induction n as [|n IH]; intros k H j J; [lia|]. cbn [groups_ok] in H. apply andb_true_iff in H. destruct H as [H1 H2]. apply andb_true_iff in H1. destruct H1 as [H0 H1].
  destruct (Z.eq_dec j k) as [->|]; [lia|]. apply (IH (k + 1)); [exact H2|lia].
Qed.
Lemma group_small q k : (Qabs q * pow10 (9 * k) < 1)%Q -> group q k = 0.
Proof.
  intros H. unfold group. assert (E : Qfloor (Qabs q * pow10 (9 * k)) = 0); [|rewrite E; reflexivity].
  assert (0 <= Qabs q * pow10 (9 * k))%Q by (apply Qmult_le_0_compat; [apply Qabs_nonneg|apply Qlt_le_weak, pow10_pos]).
  pose proof (Qfloor_resp_le _ _ H0) as X. change (Qfloor 0) with 0 in X.
  assert (Qfloor (Qabs q * pow10 (9 * k)) < 1); [|lia]. rewrite Zlt_Qlt. eapply Qle_lt_trans; [apply Qfloor_le|exact H].
Qed.
(** [tame_exact K E y]: the groups from [K] on are checked, and the divisor
    ends soon enough; [tame_low K]: they are checked from both sides. *)
Lemma tame_exact K E y F a b : (Qabs (value a / value b) * pow10 (9 * (K - 1)) < 1)%Q ->
  groups_ok 0 999999989 (value a / value b) (Z.to_nat (F + 1 - K)) K = true ->
  0 <= E /\ (E = 0 \/ (pow10 (9 * (E - 1)) <= Qabs (value a / value b))%Q) /\ (value b * pow10 (9 * (fu a + E + 1)) == inject_Z y)%Q -> tame F a b.
Proof.
  intros H1 H2 H3. split; [|left; eauto]. intros k Hk. destruct (Z.lt_ge_cases k K) as [L|L].
  - rewrite group_small; [lia|]. eapply Qle_lt_trans; [|exact H1]. rewrite !(Qmult_comm (Qabs _)). apply Qmult_le_compat_r; [apply pow10_mono; lia|apply Qabs_nonneg].
  - apply (groups_ok_spec _ _ _ _ _ H2). lia.
Qed.
Lemma tame_low K F a b : (Qabs (value a / value b) * pow10 (9 * (K - 1)) < 1)%Q -> (1 <= Qabs (value a / value b) * pow10 (9 * K))%Q ->
  groups_ok 0 999999989 (value a / value b) (Z.to_nat (F + 1 - K)) K = true -> groups_ok 36 999999989 (value a / value b) (Z.to_nat (F - K)) (K + 2) = true -> tame F a b.
Proof.
  intros H1 H1' H2 H3. split; [|right].
  - intros k Hk. destruct (Z.lt_ge_cases k K) as [L|L].
    + rewrite group_small; [lia|]. eapply Qle_lt_trans; [|exact H1]. rewrite !(Qmult_comm (Qabs _)). apply Qmult_le_compat_r; [apply pow10_mono; lia|apply Qabs_nonneg].
    + apply (groups_ok_spec _ _ _ _ _ H2). lia.
  - intros k Hk Hq. assert (K <= k - 2).
    { destruct (Z.le_gt_cases K (k - 2)) as [?|L]; [assumption|exfalso]. apply (Qlt_irrefl 1). eapply Qle_lt_trans; [exact Hq|]. eapply Qle_lt_trans; [|exact H1].
      rewrite !(Qmult_comm (Qabs _)). apply Qmult_le_compat_r; [apply pow10_mono; lia|apply Qabs_nonneg]. }
    apply (groups_ok_spec _ _ _ _ _ H3). lia.
Qed.
