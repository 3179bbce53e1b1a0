(** * Long division by a divisor of two significant units. *)
From Coq Require Import ZArith List Bool Lia QArith.
From Coq Require Import ZifyBool ZifyNat.
From Verif Require Import Rust Tables Model_Base Model_Cmp Model_Arith Spec Lib Cmp AddSub Sign Mul DivBasics Div Div2 Div3.
Import ListNotations.
Open Scope Z_scope.
Ltac Zify.zify_post_hook ::= Z.div_mod_to_equations.

Lemma sg_top l n N : uok l -> 0 <= n <= N -> sg l 0 N < base ^ n -> sg l 0 n = sg l 0 N.
Proof.
  intros U H B. replace N with (n + (N - n)) in * by lia. rewrite sg_app in * by lia. pose proof (sg_nonneg l 0 n U). pose proof (sg_nonneg l (0 + n) (N - n) U).
  pose proof (pow_base_pos n ltac:(lia)). set (P := base ^ n) in *. set (t := sg l (0 + n) (N - n)) in *. clearbody P t. clear - B H0 H1 H2. assert (t = 0) by nia. subst t. lia.
Qed.

Lemma lead_exp x k n rnz M : 0 < x < base ^ n -> 0 <= k -> 0 <= n -> 0 <= rnz -> M = x * base ^ k -> base ^ rnz <= M -> rnz - n + 1 <= k.
Proof.
  intros Hx Hk Hn Hr E B. assert (L : base ^ rnz < base ^ (n + k)).
  { rewrite base_pow_split by lia. pose proof (pow_base_pos k Hk). subst M. nia. }
  apply Z.pow_lt_mono_r_iff in L; [lia|reflexivity|lia].
Qed.

Lemma body_long m a b lnz rnz F U ig : wf a -> wf b -> lead2 a b lnz rnz -> 1 <= rnz -> significant_units 2 b -> (m = Debug -> significant_units 1 b) ->
  0 <= F <= 4 -> let n := F + qk a b lnz rnz + b2z (qge a b lnz rnz) in n <= U -> 0 <= U <= 9 ->
  U + lnz + 1 < 18 \/ qge a b lnz rnz = false ->
  exists r, div_body m (fd_lsu a) (fd_lsu b) zero_units lnz rnz (qge a b lnz rnz) U F ig n = Ret (Ok tt, mkfd (as_i8 ig) (9 * F) r) /\
    wrote zero_units r 0 (Z.max 0 n) /\ sg r 0 (Z.max 0 n) = quotient_units a b F.
Proof.
  intros Ha Hb L R0 S2 S1 HF n HnU HU Room. pose proof (wf_counts a Ha) as CA. pose proof (wf_counts b Hb) as CB.
  pose proof (wf_zlen a Ha) as LA. pose proof (wf_zlen b Hb) as LB. pose proof (wf_uok a Ha) as Ua. pose proof (wf_uok b Hb) as Ub.
  pose proof (quotient_zero a b lnz rnz F L Ha Hb ltac:(lia)) as QZ.
  pose proof (quotient_lt a b lnz rnz L) as QL.
  pose proof (l2_am a b lnz rnz L) as EA. pose proof (l2_bm a b lnz rnz L) as EB. pose proof (l2_ap a b lnz rnz L) as PA. pose proof (l2_bp a b lnz rnz L) as PB.
  pose proof (l2_a0 a b lnz rnz L) as A0. pose proof (l2_b0 a b lnz rnz L) as B0. pose proof (l2_bt a b lnz rnz L) as TB. pose proof (l2_at a b lnz rnz L) as TA.
  fold n in QZ. set (g := qge a b lnz rnz) in *.
  set (y := zn (fd_lsu b) rnz) in *. pose proof (nf_facts y PB) as NF. cbv zeta in NF. destruct NF as (N1 & N2 & N3).
  unfold div_body. replace (rnz =? 0) with false by lia. cbv zeta. fold y.
  rewrite i64_ok by (clear - PB; unfold base in *; lia). mret. change UNIT with base. rewrite i64_div_ok by (clear - PB; unfold base in *; lia). mret.
  set (nf := base / (y + 1)) in *. clearbody nf.
  set (la := firstn (Z.to_nat (lnz + 1)) (fd_lsu a)). set (lb := firstn (Z.to_nat (rnz + 1)) (fd_lsu b)).
  assert (Ela : sg la 0 (lnz + 1) = magnitude a) by (unfold la; rewrite sg_firstn by lia; symmetry; exact EA).
  assert (Elb : sg lb 0 (rnz + 1) = magnitude b) by (unfold lb; rewrite sg_firstn by lia; symmetry; exact EB).
  set (A := magnitude a) in *. set (B := magnitude b) in *.
  pose proof (pow_base_pos lnz ltac:(lia)) as Pl. pose proof (pow_base_pos rnz ltac:(lia)) as Pr.
  assert (HnB : nf * B < base ^ (rnz + 1)).
  { rewrite base_S by lia. clear - TB N1 N2 Pr. set (P := base ^ rnz) in *. clearbody P B.
    apply Z.lt_le_trans with (nf * (P * (y + 1))); [apply Z.mul_lt_mono_pos_l; lia|]. replace (nf * (P * (y + 1))) with (nf * (y + 1) * P) by ring.
    apply Z.mul_le_mono_nonneg_r; lia. }
  assert (HnA : g = false -> nf * A < base ^ (lnz + 1)).
  { intros G. rewrite G in QL. cbn [b2z] in QL. rewrite Z.add_0_r in QL. rewrite base_S in * by lia.
    apply (Z.mul_lt_mono_pos_r (base ^ rnz)); [exact Pr|]. clear - QL HnB N1 Pl Pr. set (P := base ^ rnz) in *. set (T := base ^ lnz) in *. clearbody P T A B.
    apply Z.lt_trans with (nf * (B * T)); [replace (nf * A * P) with (nf * (A * P)) by ring; apply Z.mul_lt_mono_pos_l; lia|].
    replace (nf * (B * T)) with (nf * B * T) by ring. replace (base * T * P) with (base * P * T) by ring. apply Z.mul_lt_mono_pos_r; lia. }
  assert (Ula : uok la) by (apply Forall_firstn, Ua). assert (Ulb : uok lb) by (apply Forall_firstn, Ub).
  assert (Lla : zlen la = lnz + 1) by (unfold la; rewrite zlen_firstn; clear - A0 LA CA; lia).
  assert (Llb : zlen lb = rnz + 1) by (unfold lb; rewrite zlen_firstn; clear - B0 LB CB; lia).
  assert (Rm : U + lnz + 1 < 18 \/ nf * sg la 0 (lnz + 1) < base ^ (lnz + 1)).
  { rewrite Ela. destruct Room as [?|G]; [left; assumption|right; auto]. }
  assert (Rb : nf * sg lb 0 (rnz + 1) < base ^ (rnz + 1)) by (rewrite Elb; exact HnB).
  destruct (norm_bufs_ok m nf la lb U lnz rnz Ula Ulb N1 HU ltac:(clear - A0 CA; lia) ltac:(clear - B0 CB; lia) Lla Llb Rb Rm)
    as (buf1 & buf2 & E & U1 & L1 & E1 & U2 & L2 & E2).
  clear Rm Rb Lla Llb Ula Ulb.
  rewrite E. mret. rewrite Ela in E1. rewrite Elb in E2. clear E Ela Elb la lb.
  rewrite !get_ok by (clear - B0 CB L2 R0; lia). mret. mret.
  (* the divisor *)
  assert (Blo : base ^ rnz <= nf * B).
  { clear - TB PB N1 Pr. set (P := base ^ rnz) in *. clearbody P B. assert (P <= B) by nia. assert (B <= nf * B) by nia. lia. }
  destruct S2 as (x & k & Hx & Hk & EX). fold B in EX.
  assert (Blo' : base ^ rnz <= B) by (clear - TB PB Pr; set (P := base ^ rnz) in *; clearbody P B; nia).
  pose proof (lead_exp x k 2 rnz B Hx Hk ltac:(lia) ltac:(lia) EX Blo') as Hk1.
  assert (Hr8 : 1 <= rnz <= 8) by (clear - R0 B0 CB; lia).
  assert (DU : forall x k, 0 < x -> B = x * base ^ k -> 0 <= k -> rnz - 1 <= k -> _) by
    (intros x0 k0 X1 X2 X3 X4; exact (divisor_units buf2 rnz (nf * B) (nf * x0) k0 U2 L2 Hr8 E2 Blo
      ltac:(rewrite X2; ring) ltac:(apply Z.mul_pos_pos; clear - X1 N1; lia) X3 X4)).
  destruct (DU x k (proj1 Hx) EX Hk ltac:(clear - Hk1; lia)) as (V1 & V2 & _).
  assert (V3 : m = Debug -> zn buf2 (rnz - 1) = 0).
  { intros Hm. destruct (S1 Hm) as (x' & k' & Hx' & Hk' & EX'). fold B in EX'.
    pose proof (lead_exp x' k' 1 rnz B Hx' Hk' ltac:(lia) ltac:(lia) EX' Blo') as Hk1'.
    destruct (DU x' k' (proj1 Hx') EX' Hk' ltac:(clear - Hk1'; lia)) as (_ & _ & X). apply X. clear - Hk1'. lia. }
  rewrite V1. set (d0 := zn buf2 rnz) in *. set (d1 := zn buf2 (rnz - 1)) in *. set (D := d0 * base + d1) in *.
  pose proof (uok_zn buf2 rnz U2) as Bd0. pose proof (uok_zn buf2 (rnz - 1) U2) as Bd1. fold d0 in Bd0. fold d1 in Bd1.
  pose proof (pow_base_pos (rnz - 1) ltac:(clear - R0; lia)) as Pr1.
  assert (EP : base ^ rnz = base * base ^ (rnz - 1)) by (rewrite <- base_S by (clear - R0; lia); f_equal; clear; lia).
  assert (Hd0 : base <= 4 * d0).
  { assert (nf * y < d0 + 1); [|clear - H N3 Bd0; lia]. assert (X : nf * (base ^ rnz * y) < (d0 + 1) * base ^ rnz).
    { apply Z.le_lt_trans with (nf * B); [apply Z.mul_le_mono_nonneg_l; [clear - N1; lia|apply TB]|]. rewrite <- V2, EP. unfold D.
      replace ((d0 + 1) * (base * base ^ (rnz - 1))) with ((d0 + 1) * base * base ^ (rnz - 1)) by ring. apply Z.mul_lt_mono_pos_r; [exact Pr1|]. clear - Bd1. lia. }
    replace (nf * (base ^ rnz * y)) with (nf * y * base ^ rnz) in X by ring. apply Z.mul_lt_mono_pos_r in X; assumption. }
  (* the dividend *)
  assert (HD : 0 < D) by (unfold D; clear - Hd0 Bd1; unfold base in *; lia).
  set (i := U + lnz + (if g then 0 else -1)).
  assert (Gi : i = U + lnz + b2z g - 1) by (unfold i, b2z; clear; destruct g; lia). assert (Hg : 0 <= b2z g <= 1) by (clear; destruct g; cbn; lia). clearbody i.
  assert (Hi : i + 1 < 18) by (rewrite Gi; destruct Room as [Q|Q]; [|rewrite Q; cbn [b2z]]; clear - Q Hg HU A0 CA; lia).
  assert (Hi0 : 0 <= i + 1) by (clear - Gi Hg HU A0; lia). assert (Hlg : 0 <= lnz + b2z g) by (clear - Hg A0; lia).
  assert (QR : nf * A * base ^ U * base < D * base ^ (i + 1)).
  { apply (Z.mul_lt_mono_pos_r (base ^ (rnz - 1))); [exact Pr1|].
    replace (nf * A * base ^ U * base * base ^ (rnz - 1)) with (nf * (A * base ^ rnz) * base ^ U) by (rewrite EP; ring).
    replace (D * base ^ (i + 1) * base ^ (rnz - 1)) with (nf * (B * base ^ (lnz + b2z g)) * base ^ U).
    - apply Z.mul_lt_mono_pos_r; [apply pow_base_pos; clear - HU; lia|]. apply Z.mul_lt_mono_pos_l; [clear - N1; lia|exact QL].
    - replace (D * base ^ (i + 1) * base ^ (rnz - 1)) with (nf * B * base ^ (i + 1)) by (rewrite <- V2; ring).
      replace (i + 1) with (lnz + b2z g + U) by (clear - Gi; lia). rewrite (base_pow_split (lnz + b2z g)) by (clear - Hlg HU; lia). ring. }
  assert (ES : sg buf1 0 (i + 2) = nf * A * base ^ U).
  { rewrite (sg_top buf1 (i + 2) 18 U1 ltac:(clear - Hi Hi0; lia)); rewrite E1; [ring|]. replace (base ^ U * (nf * A)) with (nf * A * base ^ U) by ring.
    apply (Z.mul_lt_mono_pos_r base); [reflexivity|]. apply Z.lt_trans with (D * base ^ (i + 1)); [exact QR|].
    replace (i + 2) with (i + 1 + 1) by (clear; lia). rewrite (base_S (i + 1)) by exact Hi0. pose proof (pow_base_pos (i + 1) Hi0).
    replace (base * base ^ (i + 1) * base) with (base * base * base ^ (i + 1)) by ring. apply Z.mul_lt_mono_pos_r; [assumption|]. unfold D. clear - Bd0 Bd1. unfold base in *. lia. }
  assert (HR : zn buf1 (i + 1) * base + dg buf1 i < D).
  { pose proof (tops_sfl buf1 (i + 1) 2 U1 ltac:(clear - Hi0; lia)) as T. cbn [tops] in T. replace (i + 1 - 1) with i in T by (clear; lia).
    change (base ^ Z.of_nat 1) with base in T. change (base ^ Z.of_nat 0) with 1 in T.
    replace (dg buf1 (i + 1)) with (zn buf1 (i + 1)) in T by (unfold dg; replace (i + 1 <? 0) with false by (clear - Hi0; lia); reflexivity).
    replace (zn buf1 (i + 1) * base + dg buf1 i) with (zn buf1 (i + 1) * base + (dg buf1 i * 1 + 0)) by ring. rewrite T.
    replace (i + 1 + 1) with (i + 2) by (clear; lia). rewrite ES. unfold sfl. change (Z.of_nat 2) with 2.
    apply Z.div_lt_upper_bound; [apply pow_base_pos; clear; lia|].
    destruct (Z.le_gt_cases 0 i) as [I|I].
    - replace (Z.max 0 (2 - (i + 1) - 1)) with 0 by (clear - I; lia). replace (Z.max 0 (- (2 - (i + 1) - 1))) with i by (clear - I; lia). rewrite Z.pow_0_r, Z.mul_1_r.
      apply (Z.mul_lt_mono_pos_r base); [reflexivity|]. replace (base ^ i * D * base) with (D * (base * base ^ i)) by ring. rewrite <- base_S by exact I. exact QR.
    - assert (Im : i = -1) by (clear - I Hi0; lia). clear ES Gi Hi Hi0 T. subst i. change (Z.max 0 (2 - (-1 + 1) - 1)) with 1. change (Z.max 0 (- (2 - (-1 + 1) - 1))) with 0. change (-1 + 1) with 0 in QR. 
      rewrite Z.pow_0_r in *. rewrite Z.pow_1_r. rewrite Z.mul_1_l. rewrite Z.mul_1_r in QR. exact QR. }
  assert (NN : Z.of_nat (Z.to_nat n) <= i + 1) by (rewrite Gi; clear - HnU HU A0 Hg; lia).
  destruct (long_div_ok m d0 d1 Hd0 (proj2 Bd0) Bd1 (Z.to_nat (rnz - 1)) (Z.to_nat n) buf1 i zero_units U1 (uok_repeat0 9) NN ltac:(rewrite L1; exact Hi) ltac:(rewrite L1; clear; lia)
    ltac:(rewrite zlen_zero_units; clear - HnU HU; clearbody n; lia) V3 HR) as (r & Er & W & Es).
  replace (Z.of_nat (Z.to_nat (rnz - 1)) + 1) with rnz in Er by (clear - R0; lia). rewrite Er. mret. exists r.
  replace (as_i8 (F * DIGITS_PER_UNIT)) with (9 * F) by (change DIGITS_PER_UNIT with 9; rewrite as_i8_id by (clear - HF; lia); lia).
  split; [reflexivity|]. replace (Z.max 0 n) with (Z.of_nat (Z.to_nat n)) by (clear; lia). split; [exact W|].
  destruct (Z.le_gt_cases n 0) as [N|N].
  { rewrite (QZ N). apply sg_nil. clear - N. lia. }
  rewrite Es. fold D. rewrite tops_sfl by (exact U1 || (clear - Hi0; lia)). replace (i + 1 + 1) with (i + 2) by (clear; lia). rewrite ES. rewrite sfl_div by exact HD.
  set (p := Z.of_nat (Z.to_nat n + 2) - (i + 1) - 1). assert (Hp : p = n - i) by (unfold p; clear - N; clearbody n; lia). clearbody p.
  unfold quotient_units. fold A B.
  rewrite <- (Z.div_mul_cancel_r _ _ (base ^ (rnz - 1))); [| apply Z.neq_sym, Z.lt_neq, Z.mul_pos_pos; [exact HD|apply pow_base_pos; clear; lia] | clear - Pr1; lia].
  replace (D * base ^ Z.max 0 (- p) * base ^ (rnz - 1)) with (nf * (B * base ^ Z.max 0 (- p))) by (rewrite Z.mul_assoc, <- V2; ring).
  replace (nf * A * base ^ U * base ^ Z.max 0 p * base ^ (rnz - 1)) with (nf * (A * (base ^ U * base ^ Z.max 0 p * base ^ (rnz - 1)))) by ring.
  assert (HB : 0 < B) by (clear - Blo' Pr; lia).
  rewrite Z.div_mul_cancel_l; [| apply Z.neq_sym, Z.lt_neq, Z.mul_pos_pos; [exact HB|apply pow_base_pos; clear; lia] | clear - N1; lia].
  rewrite <- !base_pow_split by (clear - HU R0; lia). apply scale_eq; [exact HB|clear - HU R0 HF CA CB; lia..|]. rewrite Hp, Gi. unfold n, qk. fold g. clear. lia.
Qed.
