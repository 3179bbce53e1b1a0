(** * The remainder whatever the guesses of the quotient units are. *)
From Coq Require Import ZArith List Bool Lia QArith Qabs.
From Coq Require Import ZifyBool ZifyNat.
From Verif Require Import Rust Tables Model_Base Model_Cmp Model_Arith Spec Lib Cmp AddSub Sign Witness Basics MulAbs Mul DivBasics Div Div2 Div3 Div4 Div5 DivQ Rem Rem2 Rem3 Rem4 Rem5 AddSubQ MulQ Agree Term Robust Robust2 RoundQ Spec_Rem RemFull.
Import ListNotations.
Open Scope Z_scope.
Ltac Zify.zify_post_hook ::= Z.div_mod_to_equations.

(** The buffers, with all their room used. *)
Lemma rem_bufs_full m nf (la lb : list Z) lsh rsh lnz rnz : uok la -> uok lb -> 1 <= nf < base -> 0 <= lsh -> 0 <= rsh -> 0 <= lnz -> 0 <= rnz ->
  zlen la = lnz + 1 -> zlen lb = rnz + 1 -> nf * sg lb 0 (rnz + 1) < base ^ (rnz + 1) -> lnz + 1 + lsh = 18 -> rnz + 1 + rsh <= 18 ->
  (exists buf1 buf2, rem_bufs m nf la lb lsh rsh (lnz + 1 + lsh) (rnz + 1 + rsh) = Ret (buf1, buf2) /\ uok buf1 /\ zlen buf1 = 18 /\
    sg buf1 0 18 = base ^ lsh * (nf * sg la 0 (lnz + 1)) /\ uok buf2 /\ zlen buf2 = 18 /\ sg buf2 0 (rnz + 1 + rsh) = base ^ rsh * (nf * sg lb 0 (rnz + 1))) \/
  (exists p, rem_bufs m nf la lb lsh rsh (lnz + 1 + lsh) (rnz + 1 + rsh) = Panic p /\ p <> PFuel).
Proof.
  intros Ua Ub Hnf Hls Hrs Hl Hr La Lb Hb R1 R2. unfold rem_bufs.
  assert (B : forall s U k, uok s -> 0 <= U -> 0 <= k -> zlen s = k + 1 -> k + 1 + U <= 18 ->
     uok (blit (repeat 0 18) U s) /\ zlen (blit (repeat 0 18) U s) = 18 /\ sg (blit (repeat 0 18) U s) 0 18 = base ^ U * sg s 0 (k + 1)).
  { intros s U k Us HU Hk Ls Fit. split; [apply uok_blit; [apply uok_repeat0|exact Us]|]. split; [apply zlen_blit; [lia|rewrite zlen_repeat; lia]|].
    rewrite <- Ls. apply (sg_blit_zero 18); lia. }
  assert (B' : forall s, uok s -> zlen s = rnz + 1 -> sg (blit (repeat 0 18) rsh s) 0 (rnz + 1 + rsh) = base ^ rsh * sg s 0 (rnz + 1)).
  { intros s Us Ls. destruct (B s rsh rnz Us Hrs Hr Ls R2) as (X1 & X2 & X3). rewrite <- X3. apply sg_top; [exact X1|lia|]. rewrite X3.
    replace (rnz + 1 + rsh) with (rsh + (rnz + 1)) by lia. rewrite base_pow_split by lia. apply Z.mul_lt_mono_pos_l; [apply pow_base_pos; lia|]. apply sg_bound; [exact Us|lia]. }
  destruct (Z.eqb_spec nf 1) as [N|N].
  - left. subst nf. rewrite !write_slice_ok by (rewrite ?zlen_repeat; lia). mret. mret. do 2 eexists. split; [reflexivity|].
    destruct (B la lsh lnz Ua Hls Hl La ltac:(lia)) as (X1 & X2 & X3). destruct (B lb rsh rnz Ub Hrs Hr Lb ltac:(lia)) as (Y1 & Y2 & Y3).
    split; [exact X1|]. split; [exact X2|]. split; [rewrite X3; ring|]. split; [exact Y1|]. split; [exact Y2|]. rewrite (B' lb Ub Lb). ring.
  - destruct (norm_units_ok m nf ltac:(lia) la 0 Ua ltac:(unfold base; lia)) as (nl & c & E & Un & Ln & Hc & Es). rewrite E. mret. rewrite La in *.
    rewrite write_slice_ok by (rewrite ?zlen_repeat; clear - Ln R1 R2 Hls Hrs Hl Hr; lia). mret. destruct (B nl lsh lnz Un Hls Hl Ln ltac:(lia)) as (X1 & X2 & X3).
    set (buf1 := blit (repeat 0 18) lsh nl) in *.
    destruct (Z.gtb_spec c 0) as [C|C].
    { right. rewrite R1. unfold set at 1. rewrite X2. cbn [bind Z.leb Z.ltb Z.compare Pos.compare Pos.compare_cont andb]. exists PIndex. split; [reflexivity|discriminate]. }
    left. assert (c = 0) as -> by lia. mret.
    destruct (norm_units_ok m nf ltac:(lia) lb 0 Ub ltac:(unfold base; lia)) as (nr & c' & E' & Un' & Ln' & Hc' & Es'). rewrite E'. mret. rewrite Lb in *.
    rewrite write_slice_ok by (rewrite ?zlen_repeat; clear - Ln' R1 R2 Hls Hrs Hl Hr; lia). mret. destruct (B nr rsh rnz Un' Hrs Hr Ln' ltac:(lia)) as (V1 & V2 & V3).
    assert (c' = 0). { pose proof (sg_nonneg nr 0 (rnz + 1) Un'). pose proof (pow_base_pos (rnz + 1) ltac:(lia)). clear - Es' Hb H H0 Hc'. nia. }
    subst c'. assert (EA : debug_assert m (0 =? 0) = Ret tt) by (destruct m; reflexivity). rewrite EA. mret.
    do 2 eexists. split; [reflexivity|]. split; [exact X1|]. split; [exact X2|]. split; [rewrite X3; f_equal; clear - Es; lia|]. split; [exact V1|]. split; [exact V2|]. rewrite (B' nr Un' Ln'). f_equal. lia.
Qed.

Lemma rem_long_any a b lnz rnz : wf a -> wf b -> lead2 a b lnz rnz -> 1 <= rnz -> al b a < al a b ->
  (exists r nz, rem_long Release (fd_lsu a) (fd_lsu b) lnz rnz (qge a b lnz rnz) (lsh a b) (lsh b a) = Ret (r, nz) /\
    uok r /\ zlen r = 9 /\ sg r 0 9 < 4 * al b a /\ lead_num (sg r 0 9) nz) \/
  ((lnz + 1 + lsh a b = 18 /\ qge a b lnz rnz = true) /\ exists p, rem_long Release (fd_lsu a) (fd_lsu b) lnz rnz (qge a b lnz rnz) (lsh a b) (lsh b a) = Panic p /\ p <> PFuel).
Proof.
  intros Ha Hb L R0 G. pose proof (wf_counts a Ha) as CA. pose proof (wf_counts b Hb) as CB.
  pose proof (wf_zlen a Ha) as LA. pose proof (wf_zlen b Hb) as LB. pose proof (wf_uok a Ha) as Ua. pose proof (wf_uok b Hb) as Ub.
  destruct (rem_bounds a b lnz rnz Ha Hb L G) as (N1 & QL & QG & RB & R8 & LB1 & _).
  pose proof (l2_am a b lnz rnz L) as EA. pose proof (l2_bm a b lnz rnz L) as EB. pose proof (l2_bp a b lnz rnz L) as PB.
  pose proof (l2_a0 a b lnz rnz L) as A0. pose proof (l2_b0 a b lnz rnz L) as B0. pose proof (l2_bt a b lnz rnz L) as TB.
  assert (Hl0 : 0 <= lsh a b) by (unfold lsh; clear; lia). assert (Hr0 : 0 <= lsh b a) by (unfold lsh; clear; lia).
  assert (R18 : lnz + 1 + lsh a b <= 18) by (unfold lsh; clear - A0 CA CB; lia).
  set (y := zn (fd_lsu b) rnz) in *. pose proof (nf_facts y PB) as NF. cbv zeta in NF. destruct NF as (N2 & N3 & _). pose proof (nf_half y PB) as N4.
  assert (N5 : base <= 2 * (base / (y + 1)) * (y + 1)).
  { pose proof (Z.mul_succ_div_gt base (y + 1) ltac:(clear - PB; lia)) as X. set (q := base / (y + 1)) in *. clearbody q. clear - X N2 PB. nia. }
  unfold rem_long. cbv zeta. fold y.
  rewrite i64_ok by (clear - PB; unfold base in *; lia). rewrite !bind_Ret. cbv beta. change UNIT with base. rewrite i64_div_ok by (clear - PB; unfold base in *; lia). rewrite !bind_Ret. cbv beta.
  set (nf := base / (y + 1)) in *. clearbody nf.
  set (la := firstn (Z.to_nat (lnz + 1)) (fd_lsu a)). set (lb := firstn (Z.to_nat (rnz + 1)) (fd_lsu b)).
  assert (Ela : sg la 0 (lnz + 1) = magnitude a) by (unfold la; rewrite sg_firstn by (clear - A0; lia); symmetry; exact EA).
  assert (Elb : sg lb 0 (rnz + 1) = magnitude b) by (unfold lb; rewrite sg_firstn by (clear - B0; lia); symmetry; exact EB).
  pose proof (pow_base_pos rnz ltac:(clear - B0; lia)) as Pr.
  assert (HnB : nf * magnitude b < base ^ (rnz + 1)).
  { rewrite base_S by (clear - B0; lia). clear - TB N2 N3 Pr. set (P := base ^ rnz) in *. set (B := magnitude b) in *. clearbody P B.
    apply Z.lt_le_trans with (nf * (P * (y + 1))); [apply Z.mul_lt_mono_pos_l; lia|]. replace (nf * (P * (y + 1))) with (nf * (y + 1) * P) by ring.
    apply Z.mul_le_mono_nonneg_r; lia. }
  assert (Ula : uok la) by (apply Forall_firstn, Ua). assert (Ulb : uok lb) by (apply Forall_firstn, Ub).
  assert (Lla : zlen la = lnz + 1) by (unfold la; rewrite zlen_firstn; clear - A0 LA CA; lia).
  assert (Llb : zlen lb = rnz + 1) by (unfold lb; rewrite zlen_firstn; clear - B0 LB CB; lia).
  assert (BF : (exists buf1 buf2, rem_bufs Release nf la lb (lsh a b) (lsh b a) (lnz + 1 + lsh a b) (rnz + 1 + lsh b a) = Ret (buf1, buf2) /\ uok buf1 /\ zlen buf1 = 18 /\
    sg buf1 0 18 = base ^ lsh a b * (nf * sg la 0 (lnz + 1)) /\ uok buf2 /\ zlen buf2 = 18 /\ sg buf2 0 (rnz + 1 + lsh b a) = base ^ lsh b a * (nf * sg lb 0 (rnz + 1))) \/
    ((lnz + 1 + lsh a b = 18 /\ qge a b lnz rnz = true) /\ exists p, rem_bufs Release nf la lb (lsh a b) (lsh b a) (lnz + 1 + lsh a b) (rnz + 1 + lsh b a) = Panic p /\ p <> PFuel)).
  { destruct (Z.eq_dec (lnz + 1 + lsh a b) 18) as [X|X].
    - destruct (qge a b lnz rnz) eqn:Q.
      2: { left. apply rem_bufs_ok; auto; [clear - A0; lia|clear - B0; lia|rewrite Elb; exact HnB| |clear - R8; lia]. right. split; [exact X|]. rewrite Ela. apply (norm_dividend a b lnz rnz nf L Q); [clear - N2; lia|exact HnB]. }
      destruct (rem_bufs_full Release nf la lb (lsh a b) (lsh b a) lnz rnz Ula Ulb N2 Hl0 Hr0 ltac:(clear - A0; lia) ltac:(clear - B0; lia) Lla Llb ltac:(rewrite Elb; exact HnB) X ltac:(clear - R8; lia)) as [Y|Y]; [left; exact Y|right; auto].
    - left. apply rem_bufs_ok; auto; [clear - A0; lia|clear - B0; lia|rewrite Elb; exact HnB|left; clear - X R18; lia|clear - R8; lia]. }
  destruct BF as [(buf1 & buf2 & E & U1 & L1 & E1 & U2 & L2 & E2)|(X & p & E & NFu)]; [|right; split; [exact X|]; rewrite E; cbn [bind]; eauto].
  rewrite E, bind_Ret. rewrite Ela in E1. rewrite Elb in E2. clear E Ela Elb la lb Ula Ulb Lla Llb.
  rewrite !get_ok by (clear - B0 R8 L2 R0 Hr0; lia). rewrite !bind_Ret. rewrite slice_ok by (clear - B0 R8 L2 Hr0; lia). rewrite !bind_Ret. cbn [skipn Z.to_nat].
  replace (rnz + 1 + lsh b a - 0) with (rnz + lsh b a + 1) by (clear; lia). replace (rnz + 1 + lsh b a) with (rnz + lsh b a + 1) in * by (clear; lia).
  replace (base ^ lsh a b * (nf * magnitude a)) with (nf * al a b) in E1 by (unfold al; ring).
  replace (base ^ lsh b a * (nf * magnitude b)) with (nf * al b a) in E2 by (unfold al; ring).
  assert (HnB' : nf * al b a < base ^ (rnz + lsh b a + 1)).
  { unfold al. replace (rnz + lsh b a + 1) with (rnz + 1 + lsh b a) by (clear; lia). rewrite base_pow_split by (clear - R0 Hr0; lia). rewrite Z.mul_assoc.
    apply Z.mul_lt_mono_pos_r; [apply pow_base_pos, Hr0|exact HnB]. }
  assert (TB' : base ^ (rnz + lsh b a) * y <= al b a).
  { unfold al. rewrite base_pow_split by (clear - R0 Hr0; lia). replace (base ^ rnz * base ^ lsh b a * y) with (base ^ rnz * y * base ^ lsh b a) by ring.
    apply Z.mul_le_mono_nonneg_r; [apply Z.lt_le_incl, pow_base_pos, Hr0|apply TB]. }
  replace (lnz + 1 + lsh a b) with (lnz + lsh a b + 1) in * by (clear; lia).
  set (k := rnz + lsh b a) in *. assert (K1 : 1 <= k) by (unfold k; clear - R0 Hr0; lia). set (kl := lnz + lsh a b) in *.
  set (d0 := zn buf2 k) in *. set (d1 := zn buf2 (k - 1)) in *.
  pose proof (uok_zn buf2 k U2) as Bd0. pose proof (uok_zn buf2 (k - 1) U2) as Bd1. fold d0 in Bd0. fold d1 in Bd1.
  set (b2 := firstn (Z.to_nat (k + 1)) buf2). assert (Ub2 : uok b2) by (apply Forall_firstn, U2).
  assert (Lb2 : zlen b2 = k + 1) by (unfold b2; rewrite zlen_firstn; clear - L2 K1 R8; lia). clearbody b2.
  pose proof (pow_base_pos k ltac:(clear - K1; lia)) as Pk.
  assert (Hd0 : base <= 2 * d0).
  { pose proof (top_bounds buf2 k U2 ltac:(clear - K1; lia)) as [_ T]. fold d0 in T. rewrite E2 in T.
    assert (X : nf * y < d0 + 1); [|clear - X N4; lia]. apply (Z.mul_lt_mono_pos_l (base ^ k)); [exact Pk|].
    eapply Z.le_lt_trans; [|exact T]. replace (base ^ k * (nf * y)) with (nf * (base ^ k * y)) by ring. apply Z.mul_le_mono_nonneg_l; [clear - N2; lia|exact TB']. }
  clearbody d0 d1.
  set (X := al a b) in *. set (Y := al b a) in *.
  assert (HY : 0 < Y) by (clear - LB1 Pk; lia).
  set (n := qn a b lnz rnz) in *. assert (En : n = kl - k + b2z (qge a b lnz rnz)) by reflexivity.
  assert (Ei : exists i, i = kl + 1 + (if qge a b lnz rnz then 0 else -1) - 1) by eauto. destruct Ei as (i & Ei). rewrite <- Ei.
  assert (In : i + 2 = k + 1 + n) by (rewrite Ei, En; unfold b2z; clear; destruct (qge a b lnz rnz); lia).
  assert (Ik : i <= kl) by (rewrite Ei; clear; destruct (qge a b lnz rnz); lia).
  replace (Z.to_nat (i - (k + 1 - 1) + 1)) with (Z.to_nat n) by (clear - In; lia).
  assert (NN' : Z.of_nat (Z.to_nat n) = n) by (clear - N1; lia).
  assert (HV : nf * X < base ^ (i + 2)).
  { rewrite In. rewrite base_pow_split by (clear - K1 N1; lia). apply Z.lt_trans with (nf * (Y * base ^ n)); [apply Z.mul_lt_mono_pos_l; [clear - N2; lia|exact QL]|].
    rewrite Z.mul_assoc. apply Z.mul_lt_mono_pos_r; [apply pow_base_pos; clear - N1; lia|exact HnB']. }
  assert (HZ : forall j, i + 1 < j < 18 -> zn buf1 j = 0).
  { intros j J. apply (sg_zero_inv buf1 (i + 2) (18 - (i + 2)) U1); [|clear - J; lia].
    assert (E18 : nf * X = sg buf1 0 (i + 2) + base ^ (i + 2) * sg buf1 (i + 2) (18 - (i + 2))).
    { rewrite <- E1. replace 18 with (i + 2 + (18 - (i + 2))) at 1 by (clear; lia). rewrite sg_app by (clear - J In N1 K1; lia). reflexivity. }
    pose proof (sg_nonneg buf1 0 (i + 2) U1) as G1. pose proof (sg_nonneg buf1 (i + 2) (18 - (i + 2)) U1) as G2. pose proof (pow_base_pos (i + 2) ltac:(clear - In N1 K1; lia)) as G3.
    clear - E18 G1 G2 G3 HV. nia. }
  destruct (long_rem_any Release b2 (k + 1) d0 d1 Ub2 Lb2 ltac:(clear - K1; lia) Hd0 (proj2 Bd0) Bd1 (Z.to_nat n) buf1 i U1 L1 ltac:(rewrite NN'; exact In) ltac:(clear - Ik R18; lia) HZ)
    as [(bf & Er & Uf & Lf & Zf)|(p & Er & NFu & NP)].
  2: { right. rewrite Er. cbn [bind]. split; [|eauto]. assert (I17 : i = 17 \/ i + 1 < 18) by (clear - R18 Ik; lia). destruct I17 as [I17|I17]; [|exfalso; apply (NP eq_refl), I17].
       rewrite Ei in I17. destruct (qge a b lnz rnz); [|exfalso; clear - I17 R18; lia]. split; [clear - I17; lia|reflexivity]. }
  left. rewrite Er, !bind_Ret. cbn [debug_assert]. rewrite !bind_Ret. clear Er HZ HV. rewrite NN' in Zf. specialize (Zf N1).
  assert (S18 : sg bf 0 18 = sg bf 0 (k + 1)).
  { replace 18 with (k + 1 + (18 - (k + 1))) by (clear; lia). rewrite sg_app by (clear - K1 R8; lia). rewrite (sg_0 bf (0 + (k + 1))) by (intros j J; apply Zf; clear - J; lia). clear. ring. }
  pose proof (sg_bound bf 0 (k + 1) Uf ltac:(clear - K1; lia)) as BT.
  assert (ES : sg bf 0 (kl + 1) = sg bf 0 (k + 1)).
  { rewrite <- S18. symmetry. symmetry. apply sg_top; [exact Uf|clear - R18 RB K1; lia|]. rewrite S18. apply Z.lt_le_trans with (1 := proj2 BT). apply Z.pow_le_mono_r; [reflexivity|clear - RB; lia]. }
  assert (ET : exists T, T = sg bf 0 (k + 1)) by eauto. destruct ET as (T & ET). rewrite <- ET in *.
  assert (NN : Z.of_nat (Z.to_nat (kl + 1)) = kl + 1) by (clear - RB K1; lia).
  assert (R9 : T < nf * base ^ 9).
  { apply Z.lt_le_trans with (1 := proj2 BT). apply Z.le_trans with (1 * base ^ 9); [rewrite Z.mul_1_l; apply Z.pow_le_mono_r; [reflexivity|clear - R8; lia]|].
    apply Z.mul_le_mono_nonneg_r; [apply Z.lt_le_incl, pow_base_pos; lia|apply N2]. }
  destruct (denorm_ok Release bf nf Uf N2 (Z.to_nat (kl + 1)) 0 zero_units (-1) ltac:(rewrite NN, Lf; clear - R18; lia) ltac:(clear - N2; lia) (uok_repeat0 9) zlen_zero_units
    ltac:(intros; apply zn_zero_units) T ltac:(rewrite NN, ES; clear; ring) R9) as (r & nz & Ed & Ur & Lr & Sr & _ & LN).
  rewrite Ed, bind_Ret. cbn [debug_assert]. rewrite bind_Ret.
  assert (S0 : sg zero_units 0 9 = 0) by reflexivity. rewrite S0, Z.add_0_l in Sr.
  exists r, nz. split; [reflexivity|]. split; [exact Ur|]. split; [exact Lr|]. rewrite Sr. split; [|apply LN; clear; lia].
  apply Z.div_lt_upper_bound; [clear - N2; lia|]. apply Z.lt_le_trans with (1 := proj2 BT). rewrite base_S by (clear - K1; lia).
  apply Z.le_trans with (2 * nf * (y + 1) * base ^ k); [apply Z.mul_le_mono_nonneg_r; [clear - Pk; lia|exact N5]|].
  apply Z.le_trans with (4 * nf * (base ^ k * y)).
  - replace (2 * nf * (y + 1) * base ^ k) with (nf * base ^ k * (2 * (y + 1))) by ring. replace (4 * nf * (base ^ k * y)) with (nf * base ^ k * (4 * y)) by ring.
    apply Z.mul_le_mono_nonneg_l; [apply Z.mul_nonneg_nonneg; clear - N2 Pk; lia|clear - PB; lia].
  - replace (nf * (4 * Y)) with (4 * nf * Y) by ring. apply Z.mul_le_mono_nonneg_l; [clear - N2; lia|exact TB'].
Qed.

(** ** What is returned *)
Record rem_shape (a b d : fd) : Prop := {
  rs_wf : wf d; rs_clean : clean d; rs_tight : tight a -> tight d; rs_neg : neg d = false; rs_below : amag d < 4 * amag b }.

Lemma result_shape a b d : wf b -> magnitude b <> 0 -> rem_result a b d -> rem_shape a b d.
Proof.
  intros Hb Nb [W C T N M _]. constructor; auto. unfold mod_eq in M. pose proof (amag_nonneg b Hb) as B0.
  assert (B1 : amag b <> 0) by (rewrite amag_magnitude_zero; assumption). pose proof (Z.mod_pos_bound (amag a) (amag b) ltac:(clear - B0 B1; lia)) as X. rewrite <- M in X. clear - X B0. lia.
Qed.

Lemma rem_abs_any a b res : wf a -> wf b -> magnitude b <> 0 ->
  (exists d, rem_abs Release a b res = Ret (Ok tt, d) /\ rem_shape a b d) \/
  (exists p, rem_abs Release a b res = Panic p /\ p <> PFuel /\ magnitude a <> 0 /\ (too_long Release a b \/ (amag a < amag b /\ fu a < fu b /\ 9 < iu a + fu b))).
Proof.
  intros Ha Hb Nb. pose proof (wf_counts a Ha) as CA. pose proof (wf_counts b Hb) as CB.
  destruct (Z.eq_dec (magnitude a) 0) as [Na|Na].
  { left. exists zero. split; [apply rem_zero_dividend; assumption|]. apply result_shape; [assumption|assumption|]. apply zero_result; auto; [|left]; rewrite (amag_magnitude_zero); assumption. }
  destruct (rem_plan Release a b res Ha Hb Na Nb) as (lnz & rnz & L & ->).
  destruct (Z.compare_spec (amag a) (amag b)) as [E|E|E].
  - left. exists zero. split; [reflexivity|]. apply result_shape; [assumption|assumption|]. apply zero_result; auto. rewrite amag_magnitude_zero; assumption.
  - destruct (Z.le_gt_cases (fu b) (fu a)) as [F|F].
    { left. destruct (rem_copy_ok a b Ha Hb E (or_introl F)) as (d & Ed & R). exists d. split; [exact Ed|apply result_shape; assumption]. }
    destruct (Z.le_gt_cases (iu a + fu b) 9) as [R|R].
    { left. destruct (rem_copy_ok a b Ha Hb E (or_intror R)) as (d & Ed & R'). exists d. split; [exact Ed|apply result_shape; assumption]. }
    right. exists PIndex. split; [|split; [discriminate|auto]]. replace (fu b >? fu a) with true by (clear - F; lia). rewrite rem_copy_panics by assumption. reflexivity.
  - assert (G : al b a < al a b).
    { rewrite (al_amag a b Ha Hb), (al_amag' a b Ha Hb) in E. apply Z.mul_lt_mono_pos_r in E; [exact E|apply pow_base_pos; clear - CA CB; lia]. }
    pose proof (l2_a0 a b lnz rnz L) as A0. pose proof (l2_b0 a b lnz rnz L) as B0. pose proof (magnitude_nonneg b Hb) as Mb.
    assert (R17 : lnz + 1 + lsh a b <= 18) by (unfold lsh; clear - A0 CA CB; lia).
    assert (HY : 0 < al b a) by (unfold al; apply Z.mul_pos_pos; [clear - Mb Nb; lia|apply pow_base_pos; unfold lsh; clear; lia]).
    assert (K : (exists r nz, (if rnz =? 0 then rem_short Release (fd_lsu a) (fd_lsu b) lnz (qge a b lnz rnz) (lsh a b) (lsh b a)
                         else rem_long Release (fd_lsu a) (fd_lsu b) lnz rnz (qge a b lnz rnz) (lsh a b) (lsh b a)) = Ret (r, nz) /\
      uok r /\ zlen r = 9 /\ sg r 0 9 < 4 * al b a /\ lead_num (sg r 0 9) nz) \/
      ((lnz + 1 + lsh a b = 18 /\ qge a b lnz rnz = true) /\ exists p, (if rnz =? 0 then rem_short Release (fd_lsu a) (fd_lsu b) lnz (qge a b lnz rnz) (lsh a b) (lsh b a)
                         else rem_long Release (fd_lsu a) (fd_lsu b) lnz rnz (qge a b lnz rnz) (lsh a b) (lsh b a)) = Panic p /\ p <> PFuel)).
    { destruct (Z.eqb_spec rnz 0) as [->|R].
      - left. destruct (rem_short_ok Release a b lnz Ha Hb L G R17) as (r & nz & Er & U & Lr & M & LN). exists r, nz. split; [exact Er|]. split; [exact U|]. split; [exact Lr|]. split; [|exact LN].
        unfold mod_eq in M. pose proof (Z.mod_pos_bound (al a b) (al b a) HY) as X. rewrite <- M in X. clear - X HY. lia.
      - apply rem_long_any; auto. clear - R B0. lia. }
    destruct K as [(r & nz & -> & U & Lr & M & LN)|(X & p & Ep & NFu)].
    2: { right. rewrite Ep. cbn [bind]. exists p. split; [reflexivity|]. split; [exact NFu|]. split; [exact Na|]. left. apply (too_long_iff Release a b lnz rnz Ha Hb L).
         destruct (Z.eqb_spec rnz 0) as [->|R0]; [destruct (rem_short_ok Release a b lnz Ha Hb L G R17) as (r & nz & Er & _); rewrite Er in Ep; discriminate Ep|].
         split; [clear - B0 R0; lia|]. split; [apply X|]. right. apply X. }
    left. mret.
    assert (HF : 0 <= Z.max (frac_digits a) (frac_digits b) <= 81).
    { pose proof (wf_frac a Ha) as X. change (fd_frac a) with (frac_digits a) in X. clear - X CA CB. unfold fu, units_for in *. lia. }
    destruct (rem_finish_ok Release r nz (Z.max (frac_digits a) (frac_digits b)) (sg r 0 9) U Lr HF eq_refl LN) as (d & -> & W & C & T & N & F & Mg & _).
    exists d. split; [reflexivity|]. constructor; auto.
    assert (EU : fu d = Z.max (fu a) (fu b)) by (unfold fu; rewrite F; unfold units_for; clear; lia).
    rewrite (al_amag' a b Ha Hb). unfold amag. rewrite EU, Mg, Z.mul_assoc. apply Z.mul_lt_mono_pos_r; [apply pow_base_pos; clear - CA CB; lia|exact M].
Qed.

Lemma rem_to_any m a b res rs d : wf a -> wf b -> ~ (value b == 0)%Q -> rem_to m a b res = Ret (rs, d) ->
  rs = Ok tt /\ wf d /\ clean d /\ (tight a -> tight d) /\ ~ negzero d /\ (~ (value d == 0)%Q -> neg d = neg a) /\ (Qabs (value d) < 4 * Qabs (value b))%Q.
Proof.
  intros Ha Hb Nb H. assert (HR : rem_to Release a b res = Ret (rs, d)) by (destruct m; [apply (simr_ret _ _ _ (s_rem_to a b res)), H|exact H]). clear H.
  rewrite value_zero_iff in Nb by assumption. unfold rem_to in HR. rewrite is_neg_ok in HR by (apply wf_intg; assumption). cbv zeta in HR.
  destruct (rem_abs_any a b res Ha Hb Nb) as [(d' & E & R)|(p & E & _)]; rewrite E in HR; [|discriminate HR].
  rewrite bind_Ret in HR. cbn [finish_sign] in HR. apply Ret_inj in HR. injection HR as <- <-. split; [reflexivity|].
  destruct R as [W C T P M]. set (s := neg a).
  set (d := if s then set_neg_and_check_zero d' else d').
  assert (SD : same_digits d' d) by (unfold d; destruct s; [apply check_zero_same, W|repeat split]).
  assert (WD : wf d) by (unfold d; destruct s; [apply check_zero_wf, W|exact W]).
  assert (ND : neg d = s && negb (magnitude d =? 0)).
  { rewrite (same_magnitude _ _ SD). unfold d; destruct s; [rewrite check_zero_neg by assumption; reflexivity|rewrite P; reflexivity]. }
  clearbody d.
  split; [exact WD|]. split; [eapply same_clean; eassumption|]. split; [intros X; apply (same_tight _ _ SD), T, X|].
  split. { intros [X1 X2]. apply value_zero_iff in X2; [|exact WD]. rewrite ND, X2 in X1. destruct s; discriminate. }
  split. { intros V. rewrite ND. replace (magnitude d =? 0) with false; [apply andb_true_r|]. symmetry. apply Z.eqb_neq. intros X. apply V. apply value_zero_iff; assumption. }
  rewrite <- (same_amag _ _ SD) in M. rewrite !Qabs_value by assumption. clear - M. revert M. generalize (amag d) (amag b). intros x y M.
  unfold Qlt, Qmult. cbn [Qnum Qden]. pose proof (Pos2Z.is_pos P9). unfold P9 in *. generalize dependent (Z.to_pos (base ^ 9)). intros p Hp. rewrite Pos.mul_1_l. nia.
Qed.

(** Release: exactly when a remainder is returned. *)
Lemma rem_to_release_returns a b res : wf a -> wf b -> ~ (value b == 0)%Q -> ~ too_long Release a b ->
  (value a == 0)%Q \/ (Qabs (value b) <= Qabs (value a))%Q \/ fu b <= fu a \/ iu a + fu b <= 9 ->
  exists d, rem_to Release a b res = Ret (Ok tt, d).
Proof.
  intros Ha Hb Nb Room Fit. rewrite value_zero_iff in * by assumption. unfold rem_to. cbv zeta.
  destruct (rem_abs_any a b res Ha Hb Nb) as [(d' & E & R)|(p & _ & _ & N & [X|(G & F & I)])]; [rewrite E; mret; cbn [finish_sign]; eauto|contradiction|exfalso].
  destruct Fit as [X|[X|[X|X]]]; [tauto| |lia|lia]. apply (Qlt_not_le _ _ (proj2 (Qabs_lt_amag a b Ha Hb) G)), X.
Qed.

(** The remainder ends. *)
Lemma n_rem_abs m a b res : wf a -> wf b -> magnitude b <> 0 -> nofuel (rem_abs m a b res).
Proof.
  intros Ha Hb Nb. assert (R : nofuel (rem_abs Release a b res)).
  { destruct (rem_abs_any a b res Ha Hb Nb) as [(d & E & _)|(p & E & N & _)]; rewrite E; unfold nofuel; congruence. }
  destruct m; [|exact R]. destruct (s_rem_abs a b res) as [[E|[E|E]]|E]; rewrite E; [exact R|discriminate..].
Qed.
