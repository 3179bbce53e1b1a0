(** * Remainders in a debug build: exactly when the loop returns. *)
From Coq Require Import ZArith List Bool Lia QArith Qabs.
From Coq Require Import ZifyBool ZifyNat.
From Verif Require Import Rust Tables Model_Base Model_Cmp Model_Arith Spec Spec_Div Lib Cmp AddSub Sign Witness Basics MulAbs Mul DivBasics Div Div2 Div3 Div4 Div5 DivQ DivG DivG2 Rem Rem2 Rem3 Rem4 Rem5 Rem6 RemG AddSubQ MulQ Agree Term Robust Robust2 Robust3 Spec_Rem RemFull Rem7.
Import ListNotations.
Open Scope Z_scope.
Ltac Zify.zify_post_hook ::= Z.div_mod_to_equations.

Lemma rem_long_near_returns m a b lnz rnz : wf a -> wf b -> lead2 a b lnz rnz -> 1 <= rnz -> al b a < al a b -> lnz + 1 + lsh a b <= 17 \/ (m = Release /\ lnz + 1 + lsh a b = 18 /\ qge a b lnz rnz = false) ->
  (forall s, 1 <= s -> al b a * base ^ s <= al a b -> second_guess (al a b) (al b a) (rnz + lsh b a + 1) s = quotient_unit (al a b) (al b a) s) ->
  quotient_unit (al a b) (al b a) 0 + 1 < base ->
  (second_guess (al a b) (al b a) (rnz + lsh b a + 1) 0 = quotient_unit (al a b) (al b a) 0 \/ second_guess (al a b) (al b a) (rnz + lsh b a + 1) 0 = quotient_unit (al a b) (al b a) 0 + 1) ->
  (m = Debug -> forall s, 0 <= s -> al b a * base ^ s <= al a b -> first_guess (al a b) (al b a) (rnz + lsh b a + 1) s < base) ->
  exists r nz, rem_long m (fd_lsu a) (fd_lsu b) lnz rnz (qge a b lnz rnz) (lsh a b) (lsh b a) = Ret (r, nz) /\ uok r /\ zlen r = 9 /\ lead_num (sg r 0 9) nz.
Proof.
  intros Ha Hb L R0 G Room T1 T0 TG T2. assert (R18 : lnz + 1 + lsh a b <= 18) by (clear - Room; lia). pose proof (wf_counts a Ha) as CA. pose proof (wf_counts b Hb) as CB.
  pose proof (wf_zlen a Ha) as LA. pose proof (wf_zlen b Hb) as LB. pose proof (wf_uok a Ha) as Ua. pose proof (wf_uok b Hb) as Ub.
  destruct (rem_bounds a b lnz rnz Ha Hb L G) as (N1 & QL & QG & RB & R8 & LB1 & LB2).
  pose proof (l2_am a b lnz rnz L) as EA. pose proof (l2_bm a b lnz rnz L) as EB. pose proof (l2_bp a b lnz rnz L) as PB.
  pose proof (l2_a0 a b lnz rnz L) as A0. pose proof (l2_b0 a b lnz rnz L) as B0. pose proof (l2_bt a b lnz rnz L) as TB.
  assert (Hl0 : 0 <= lsh a b) by (unfold lsh; clear; lia). assert (Hr0 : 0 <= lsh b a) by (unfold lsh; clear; lia).
  set (y := zn (fd_lsu b) rnz) in *. pose proof (nf_facts y PB) as NF. cbv zeta in NF. destruct NF as (N2 & N3 & N4).
  unfold rem_long. cbv zeta. fold y.
  rewrite i64_ok by (clear - PB; unfold base in *; lia). mret. change UNIT with base. rewrite i64_div_ok by (clear - PB; unfold base in *; lia). mret.
  assert (ENF : norm_factor (al b a) (rnz + lsh b a + 1) = base / (y + 1)).
  { unfold norm_factor. replace (rnz + lsh b a + 1 - 1) with (rnz + lsh b a) by (clear; lia). rewrite LB2. reflexivity. }
  unfold second_guess, first_guess in T1, TG, T2. rewrite ENF in T1, TG, T2. cbv zeta in T1, TG, T2. clear ENF LB2.
  set (nf := base / (y + 1)) in *. clearbody nf.
  set (la := firstn (Z.to_nat (lnz + 1)) (fd_lsu a)). set (lb := firstn (Z.to_nat (rnz + 1)) (fd_lsu b)).
  assert (Ela : sg la 0 (lnz + 1) = magnitude a) by (unfold la; rewrite sg_firstn by (clear - A0; lia); symmetry; exact EA).
  assert (Elb : sg lb 0 (rnz + 1) = magnitude b) by (unfold lb; rewrite sg_firstn by (clear - B0; lia); symmetry; exact EB).
  pose proof (pow_base_pos rnz ltac:(clear - B0; lia)) as Pr.
  assert (HnB : nf * magnitude b < base ^ (rnz + 1)).
  { rewrite base_S by (clear - B0; lia). clear - TB N2 N3 Pr. set (P := base ^ rnz) in *. set (B := magnitude b) in *. clearbody P B.
    apply Z.lt_le_trans with (nf * (P * (y + 1))); [apply Z.mul_lt_mono_pos_l; lia|]. replace (nf * (P * (y + 1))) with (nf * (y + 1) * P) by ring.
    apply Z.mul_le_mono_nonneg_r; lia. }
  assert (Ula : uok la) by (apply Forall_firstn, Ua). assert (Ulb : uok lb) by (apply Forall_firstn, Ub).
  assert (Lla : zlen la = lnz + 1) by (unfold la; rewrite zlen_firstn; clear - A0 LA CA; lia).
  assert (Llb : zlen lb = rnz + 1) by (unfold lb; rewrite zlen_firstn; clear - B0 LB CB; lia).
  assert (HnA : lnz + 1 + lsh a b < 18 \/ (lnz + 1 + lsh a b = 18 /\ nf * magnitude a < base ^ (lnz + 1))).
  { destruct Room as [?|(_ & X & Q)]; [left; clear - H; lia|right]. split; [exact X|]. apply (norm_dividend a b lnz rnz nf L Q); [clear - N2; lia|exact HnB]. }
  destruct (rem_bufs_ok m nf la lb (lsh a b) (lsh b a) lnz rnz Ula Ulb N2 Hl0 Hr0 ltac:(clear - A0; lia) ltac:(clear - B0; lia) Lla Llb ltac:(rewrite Elb; exact HnB)
     ltac:(rewrite Ela; exact HnA) ltac:(clear - R8; lia)) as (buf1 & buf2 & E & U1 & L1 & E1 & U2 & L2 & E2).
  rewrite E. mret. rewrite Ela in E1. rewrite Elb in E2. clear E Ela Elb la lb Ula Ulb Lla Llb.
  rewrite !get_ok by (clear - B0 R8 L2 R0 Hr0; lia). mret. mret. rewrite slice_ok by (clear - B0 R8 L2 Hr0; lia). mret. cbn [skipn Z.to_nat].
  replace (rnz + 1 + lsh b a - 0) with (rnz + lsh b a + 1) by (clear; lia). replace (rnz + 1 + lsh b a) with (rnz + lsh b a + 1) in * by (clear; lia).
  replace (base ^ lsh a b * (nf * magnitude a)) with (nf * al a b) in E1 by (unfold al; ring).
  replace (base ^ lsh b a * (nf * magnitude b)) with (nf * al b a) in E2 by (unfold al; ring).
  assert (HnB' : nf * al b a < base ^ (rnz + lsh b a + 1)).
  { unfold al. replace (rnz + lsh b a + 1) with (rnz + 1 + lsh b a) by (clear; lia). rewrite base_pow_split by (clear - R0 Hr0; lia). rewrite Z.mul_assoc.
    apply Z.mul_lt_mono_pos_r; [apply pow_base_pos, Hr0|exact HnB]. }
  assert (TB' : base ^ (rnz + lsh b a) * y <= al b a).
  { unfold al. rewrite base_pow_split by (clear - R0 Hr0; lia). replace (base ^ rnz * base ^ lsh b a * y) with (base ^ rnz * y * base ^ lsh b a) by ring.
    apply Z.mul_le_mono_nonneg_r; [apply Z.lt_le_incl, pow_base_pos, Hr0|apply TB]. }
  assert (Rlen : rnz + lsh b a <= lnz + lsh a b) by exact RB.
  replace (lnz + 1 + lsh a b) with (lnz + lsh a b + 1) in * by (clear; lia).
  set (k := rnz + lsh b a) in *. assert (K1 : 1 <= k) by (unfold k; clear - R0 Hr0; lia). set (kl := lnz + lsh a b) in *.
  set (d0 := zn buf2 k) in *. set (d1 := zn buf2 (k - 1)) in *.
  pose proof (uok_zn buf2 k U2) as Bd0. pose proof (uok_zn buf2 (k - 1) U2) as Bd1. fold d0 in Bd0. fold d1 in Bd1.
  set (b2 := firstn (Z.to_nat (k + 1)) buf2). assert (Ub2 : uok b2) by (apply Forall_firstn, U2).
  assert (Lb2 : zlen b2 = k + 1) by (unfold b2; rewrite zlen_firstn; clear - L2 K1 R8; lia).
  assert (Eb2 : sg b2 0 (k + 1) = nf * al b a) by (unfold b2; rewrite sg_firstn by (clear - K1; lia); exact E2).
  pose proof (pow_base_pos k ltac:(clear - K1; lia)) as Pk. pose proof (pow_base_pos (k - 1) ltac:(clear - K1; lia)) as Pk1.
  assert (D2 : div_eq (d0 * base + d1) (nf * al b a) (base ^ (k - 1))).
  { rewrite <- E2. pose proof (div_sg buf2 (k - 1) 2 (k + 1) U2 ltac:(clear - K1; lia) ltac:(lia) ltac:(clear; lia)
      ltac:(replace (k - 1 + 2) with (k + 1) by (clear; lia); apply sg_bound; [exact U2|clear - K1; lia])) as X.
    unfold div_eq in *. rewrite X. change 2 with (1 + 1). rewrite sg_cons by lia. rewrite sg_1. replace (k - 1 + 1) with k by (clear; lia). unfold d0, d1. ring. }
  assert (D1 : div_eq d0 (nf * al b a) (base ^ k)).
  { rewrite <- E2. pose proof (div_sg buf2 k 1 (k + 1) U2 ltac:(clear - K1; lia) ltac:(lia) ltac:(clear; lia) ltac:(apply sg_bound; [exact U2|clear - K1; lia])) as X.
    unfold div_eq in *. rewrite X. apply sg_1. }
  assert (Hd0 : base <= 4 * d0).
  { assert (nf * y <= d0); [|clear - H N4 Bd0; lia]. unfold div_eq in D1. rewrite <- D1. apply Z.div_le_lower_bound; [exact Pk|].
    replace (base ^ k * (nf * y)) with (nf * (base ^ k * y)) by ring. apply Z.mul_le_mono_nonneg_l; [clear - N2; lia|exact TB']. }
  set (X := al a b) in *. set (Y := al b a) in *.
  assert (HY : 0 < Y) by (clear - LB1 Pk; lia). assert (HX : 0 < X) by (clear - HY G; lia).
  set (n := qn a b lnz rnz) in *. assert (En : n = kl - k + b2z (qge a b lnz rnz)) by reflexivity.
  pose proof (b2z_range (qge a b lnz rnz)) as Bg.
  assert (Ei : kl + 1 + (if qge a b lnz rnz then 0 else -1) - 1 = (k + 1) - 2 + Z.of_nat (Z.to_nat n)).
  { clear - En N1. unfold b2z in En. destruct (qge a b lnz rnz); lia. }
  replace (Z.to_nat (kl + 1 + (if qge a b lnz rnz then 0 else -1) - 1 - (k + 1 - 1) + 1)) with (Z.to_nat n) by (rewrite Ei; clear - N1; lia). rewrite Ei. clear Ei.
  assert (G18 : kl + 1 + b2z (qge a b lnz rnz) <= 18) by (destruct Room as [X17|(_ & X17 & Xq)]; [clear - X17 Bg; lia|rewrite Xq; cbn [b2z]; clear - X17; lia]).
  set (g := b2z (qge a b lnz rnz)) in *. clearbody g n.
  assert (Sle : forall s, 0 <= s < n -> Y * base ^ s <= X).
  { intros s S. apply Z.le_trans with (2 := QG). apply Z.mul_le_mono_nonneg_l; [clear - HY; lia|]. apply Z.pow_le_mono_r; [reflexivity|clear - S; lia]. }
  assert (MM : forall s, 0 <= s -> (nf * X) mod (nf * Y * base ^ (s + 1)) = nf * rest X Y s).
  { intros s S. rewrite <- Z.mul_assoc. apply mul_mod_l; [clear - N2; lia|]. apply Z.mul_pos_pos; [exact HY|apply pow_base_pos; clear - S; lia]. }
  assert (ED : top_two (nf * Y) (k + 1) (d0 * base + d1)) by (unfold top_two; replace (k + 1 - 2) with (k - 1) by (clear; lia); exact D2).
  assert (QC : forall s, 0 <= s -> nf * rest X Y s / (nf * Y * base ^ s) = rest X Y s / (Y * base ^ s)).
  { intros s S. rewrite <- (Z.mul_assoc nf Y). rewrite Z.div_mul_cancel_l; [reflexivity| |clear - N2; lia]. apply Z.neq_sym, Z.lt_neq, Z.mul_pos_pos; [exact HY|apply pow_base_pos; clear - S; lia]. }
  unfold div_eq in D2. replace (k + 1 - 2) with (k - 1) in * by (clear; lia).
  assert (TO : forall s, 1 <= s < Z.of_nat (Z.to_nat n) -> trial_ok (nf * X) (nf * Y) (k + 1) (d0 * base + d1) s).
  { intros s S. unfold trial_ok. rewrite MM by (clear - S; lia). specialize (T1 s ltac:(clear - S; lia) (Sle s ltac:(clear - S; lia))).
    rewrite D2 in T1. rewrite T1. unfold quotient_unit. symmetry. apply QC. clear - S; lia. }
  assert (TS : m = Debug -> forall s, 0 <= s < Z.of_nat (Z.to_nat n) -> trial_small (nf * X) (nf * Y) (k + 1) d0 s).
  { intros M s S. unfold trial_small. rewrite MM by (clear - S; lia). specialize (T2 M s ltac:(clear - S; lia) (Sle s ltac:(clear - S; lia))). unfold div_eq in D1.
    replace (k + 1 - 1) with k in T2 by (clear; lia). rewrite D1 in T2.
    set (u := nf * rest X Y s / base ^ (s + (k + 1) - 1)) in *. clearbody u. clear - T2 Hd0 Bd0.
    assert (P : 0 < d0) by (unfold base in *; lia). pose proof (Z.mul_succ_div_gt u d0 P) as G. set (v := u / d0) in *. clearbody v.
    assert (d0 * Z.succ v <= d0 * base) by (apply Z.mul_le_mono_nonneg_l; lia). lia. }
  rewrite D2 in TG.
  pose proof (MM 0 ltac:(lia)) as M0. rewrite Z.add_0_l, Z.pow_1_r in M0.
  pose proof (QC 0 ltac:(lia)) as Q0. rewrite Z.pow_0_r, !Z.mul_1_r in Q0.
  assert (LU : last_unit (nf * Y) (nf * X) = quotient_unit X Y 0) by (unfold last_unit, quotient_unit; rewrite M0, Z.pow_0_r, Z.mul_1_r; exact Q0).
  assert (LG : last_guess d0 d1 (k + 1) (nf * Y) (nf * X) = nf * rest X Y 0 / base ^ (0 + (k + 1) - 2) / (d0 * base + d1)).
  { unfold last_guess. rewrite M0. do 3 f_equal. }
  rewrite <- LG in TG. rewrite <- LU in TG, T0.
  assert (HV : nf * X < nf * Y * base ^ Z.of_nat (Z.to_nat n)).
  { replace (Z.of_nat (Z.to_nat n)) with n by (clear - N1; lia). rewrite <- Z.mul_assoc. apply Z.mul_lt_mono_pos_l; [clear - N2; lia|exact QL]. }
  destruct (long_rem_near_returns m d0 d1 b2 (k + 1) (nf * Y) Hd0 (proj2 Bd0) Bd1 Ub2 Lb2 ltac:(clear - K1; lia) Eb2 ED (Z.to_nat n) buf1 (nf * X) U1 L1
     ltac:(clear - En G18 N1; lia) (eq_sym E1) HV TO TS T0 TG) as (bf & Er).
  replace (k - 1 + Z.of_nat (Z.to_nat n)) with (k + 1 - 2 + Z.of_nat (Z.to_nat n)) by (clear; lia).
  destruct (long_rem_near m d0 d1 b2 (k + 1) (nf * Y) Hd0 (proj2 Bd0) Bd1 Ub2 Lb2 ltac:(clear - K1; lia) Eb2 ED (Z.to_nat n) buf1 (nf * X) bf U1 L1
     ltac:(clear - En G18 N1; lia) (eq_sym E1) HV TO T0 TG Er) as (Uf & Lf & Ef).
  rewrite Er. mret. clear Er TO TS HV MM Sle T1 T2 ED D1 D2 QC. rewrite mul_mod_l in Ef by (clear - N2 HY; lia).
  pose proof (Z.mod_pos_bound X Y HY) as BR0.
  assert (XR : exists R, 0 <= R <= Y /\ sg bf 0 18 = nf * R).
  { destruct Ef as [[Ef _]|[_ Ef]]; [exists (X mod Y)|exists (Y - X mod Y)]; (split; [clear - BR0; lia|]); rewrite Ef; ring. }
  clear BR0 Ef. destruct XR as (R & BR & Ef).
  assert (RB2 : nf * R < base ^ (k + 1)).
  { apply Z.le_lt_trans with (nf * Y); [apply Z.mul_le_mono_nonneg_l; [clear - N2; lia|apply BR]|exact HnB']. }
  assert (RB3 : nf * R < base ^ (kl + 1)).
  { apply Z.lt_le_trans with (1 := RB2). apply Z.pow_le_mono_r; [reflexivity|clear - RB; lia]. }
  assert (EX : (match m with Debug => get bf (kl + 1) | Release => Ret 0 end) = Ret 0).
  { destruct m; [|reflexivity]. destruct Room as [Room|[X1 _]]; [|discriminate X1]. rewrite get_ok by (clear - Lf Room RB K1; lia). f_equal.
    apply (sg_zero_inv bf (kl + 1) (18 - (kl + 1)) Uf); [|clear - Room; lia].
    assert (E18 : nf * R = sg bf 0 (kl + 1) + base ^ (kl + 1) * sg bf (kl + 1) (18 - (kl + 1))).
    { rewrite <- Ef. replace 18 with (kl + 1 + (18 - (kl + 1))) at 1 by (clear; lia). rewrite sg_app by (clear - Room RB K1; lia). reflexivity. }
    pose proof (sg_nonneg bf 0 (kl + 1) Uf) as G1. pose proof (sg_nonneg bf (kl + 1) (18 - (kl + 1)) Uf) as G2. pose proof (pow_base_pos (kl + 1) ltac:(clear - RB K1; lia)) as G3.
    clear - E18 G1 G2 G3 RB3. nia. }
  rewrite EX. mret. rewrite debug_assert_ok by reflexivity. mret. clear EX.
  assert (ES : sg bf 0 (kl + 1) = nf * R).
  { rewrite <- Ef. apply sg_top; [exact Uf|clear - R18 RB K1; lia|rewrite Ef; exact RB3]. }
  assert (NN : Z.of_nat (Z.to_nat (kl + 1)) = kl + 1) by (clear - RB K1; lia).
  assert (R9 : nf * R < nf * base ^ 9).
  { apply Z.mul_lt_mono_pos_l; [clear - N2; lia|]. apply Z.le_lt_trans with Y; [apply BR|]. apply Z.lt_le_trans with (1 := proj2 LB1). apply Z.pow_le_mono_r; [reflexivity|clear - R8; lia]. }
  destruct (denorm_ok m bf nf Uf N2 (Z.to_nat (kl + 1)) 0 zero_units (-1) ltac:(rewrite NN, Lf; clear - R18; lia) ltac:(clear - N2; lia) (uok_repeat0 9) zlen_zero_units
    ltac:(intros; apply zn_zero_units) (nf * R) ltac:(rewrite NN, ES; clear; ring) R9) as (r & nz & Ed & Ur & Lr & Sr & _ & LN).
  rewrite Ed. mret. rewrite (Z.mul_comm nf R), Z.mod_mul by (clear - N2; lia). rewrite debug_assert_ok by reflexivity. mret.
  rewrite (Z.mul_comm nf R), Z.div_mul in * by (clear - N2; lia).
  assert (S0 : sg zero_units 0 9 = 0) by reflexivity. rewrite S0, Z.add_0_l in Sr.
  exists r, nz. split; [reflexivity|]. split; [exact Ur|]. split; [exact Lr|]. rewrite Sr. apply LN. clear; lia.
Qed.

Lemma rem_long_small a b lnz rnz o (P : Prop) : wf a -> wf b -> lead2 a b lnz rnz -> 1 <= rnz -> al b a < al a b -> lnz + 1 + lsh a b <= 17 ->
  (forall s, 1 <= s -> al b a * base ^ s <= al a b -> second_guess (al a b) (al b a) (rnz + lsh b a + 1) s = quotient_unit (al a b) (al b a) s) ->
  ((forall s, 0 <= s -> al b a * base ^ s <= al a b -> first_guess (al a b) (al b a) (rnz + lsh b a + 1) s < base) -> P) ->
  rem_long Debug (fd_lsu a) (fd_lsu b) lnz rnz (qge a b lnz rnz) (lsh a b) (lsh b a) = Ret o -> P.
Proof.
  intros Ha Hb L R0 G Room T1 T2. assert (R18 : lnz + 1 + lsh a b <= 18) by (clear - Room; lia). pose proof (wf_counts a Ha) as CA. pose proof (wf_counts b Hb) as CB.
  pose proof (wf_zlen a Ha) as LA. pose proof (wf_zlen b Hb) as LB. pose proof (wf_uok a Ha) as Ua. pose proof (wf_uok b Hb) as Ub.
  destruct (rem_bounds a b lnz rnz Ha Hb L G) as (N1 & QL & QG & RB & R8 & LB1 & LB2).
  pose proof (l2_am a b lnz rnz L) as EA. pose proof (l2_bm a b lnz rnz L) as EB. pose proof (l2_bp a b lnz rnz L) as PB.
  pose proof (l2_a0 a b lnz rnz L) as A0. pose proof (l2_b0 a b lnz rnz L) as B0. pose proof (l2_bt a b lnz rnz L) as TB.
  assert (Hl0 : 0 <= lsh a b) by (unfold lsh; clear; lia). assert (Hr0 : 0 <= lsh b a) by (unfold lsh; clear; lia).
  set (y := zn (fd_lsu b) rnz) in *. pose proof (nf_facts y PB) as NF. cbv zeta in NF. destruct NF as (N2 & N3 & N4).
  unfold rem_long. cbv zeta. fold y.
  rewrite i64_ok by (clear - PB; unfold base in *; lia). mret. change UNIT with base. rewrite i64_div_ok by (clear - PB; unfold base in *; lia). mret.
  assert (ENF : norm_factor (al b a) (rnz + lsh b a + 1) = base / (y + 1)).
  { unfold norm_factor. replace (rnz + lsh b a + 1 - 1) with (rnz + lsh b a) by (clear; lia). rewrite LB2. reflexivity. }
  unfold second_guess, first_guess in T1, T2. rewrite ENF in T1, T2. cbv zeta in T1, T2. clear ENF LB2.
  set (nf := base / (y + 1)) in *. clearbody nf.
  set (la := firstn (Z.to_nat (lnz + 1)) (fd_lsu a)). set (lb := firstn (Z.to_nat (rnz + 1)) (fd_lsu b)).
  assert (Ela : sg la 0 (lnz + 1) = magnitude a) by (unfold la; rewrite sg_firstn by (clear - A0; lia); symmetry; exact EA).
  assert (Elb : sg lb 0 (rnz + 1) = magnitude b) by (unfold lb; rewrite sg_firstn by (clear - B0; lia); symmetry; exact EB).
  pose proof (pow_base_pos rnz ltac:(clear - B0; lia)) as Pr.
  assert (HnB : nf * magnitude b < base ^ (rnz + 1)).
  { rewrite base_S by (clear - B0; lia). clear - TB N2 N3 Pr. set (P := base ^ rnz) in *. set (B := magnitude b) in *. clearbody P B.
    apply Z.lt_le_trans with (nf * (P * (y + 1))); [apply Z.mul_lt_mono_pos_l; lia|]. replace (nf * (P * (y + 1))) with (nf * (y + 1) * P) by ring.
    apply Z.mul_le_mono_nonneg_r; lia. }
  assert (Ula : uok la) by (apply Forall_firstn, Ua). assert (Ulb : uok lb) by (apply Forall_firstn, Ub).
  assert (Lla : zlen la = lnz + 1) by (unfold la; rewrite zlen_firstn; clear - A0 LA CA; lia).
  assert (Llb : zlen lb = rnz + 1) by (unfold lb; rewrite zlen_firstn; clear - B0 LB CB; lia).
  assert (HnA : lnz + 1 + lsh a b < 18 \/ (lnz + 1 + lsh a b = 18 /\ nf * magnitude a < base ^ (lnz + 1))).
  { left. clear - Room. lia. }
  destruct (rem_bufs_ok Debug nf la lb (lsh a b) (lsh b a) lnz rnz Ula Ulb N2 Hl0 Hr0 ltac:(clear - A0; lia) ltac:(clear - B0; lia) Lla Llb ltac:(rewrite Elb; exact HnB)
     ltac:(rewrite Ela; exact HnA) ltac:(clear - R8; lia)) as (buf1 & buf2 & E & U1 & L1 & E1 & U2 & L2 & E2).
  rewrite E. mret. rewrite Ela in E1. rewrite Elb in E2. clear E Ela Elb la lb Ula Ulb Lla Llb.
  rewrite !get_ok by (clear - B0 R8 L2 R0 Hr0; lia). mret. mret. rewrite slice_ok by (clear - B0 R8 L2 Hr0; lia). mret. cbn [skipn Z.to_nat].
  replace (rnz + 1 + lsh b a - 0) with (rnz + lsh b a + 1) by (clear; lia). replace (rnz + 1 + lsh b a) with (rnz + lsh b a + 1) in * by (clear; lia).
  replace (base ^ lsh a b * (nf * magnitude a)) with (nf * al a b) in E1 by (unfold al; ring).
  replace (base ^ lsh b a * (nf * magnitude b)) with (nf * al b a) in E2 by (unfold al; ring).
  assert (HnB' : nf * al b a < base ^ (rnz + lsh b a + 1)).
  { unfold al. replace (rnz + lsh b a + 1) with (rnz + 1 + lsh b a) by (clear; lia). rewrite base_pow_split by (clear - R0 Hr0; lia). rewrite Z.mul_assoc.
    apply Z.mul_lt_mono_pos_r; [apply pow_base_pos, Hr0|exact HnB]. }
  assert (TB' : base ^ (rnz + lsh b a) * y <= al b a).
  { unfold al. rewrite base_pow_split by (clear - R0 Hr0; lia). replace (base ^ rnz * base ^ lsh b a * y) with (base ^ rnz * y * base ^ lsh b a) by ring.
    apply Z.mul_le_mono_nonneg_r; [apply Z.lt_le_incl, pow_base_pos, Hr0|apply TB]. }
  assert (Rlen : rnz + lsh b a <= lnz + lsh a b) by exact RB.
  replace (lnz + 1 + lsh a b) with (lnz + lsh a b + 1) in * by (clear; lia).
  set (k := rnz + lsh b a) in *. assert (K1 : 1 <= k) by (unfold k; clear - R0 Hr0; lia). set (kl := lnz + lsh a b) in *.
  set (d0 := zn buf2 k) in *. set (d1 := zn buf2 (k - 1)) in *.
  pose proof (uok_zn buf2 k U2) as Bd0. pose proof (uok_zn buf2 (k - 1) U2) as Bd1. fold d0 in Bd0. fold d1 in Bd1.
  set (b2 := firstn (Z.to_nat (k + 1)) buf2). assert (Ub2 : uok b2) by (apply Forall_firstn, U2).
  assert (Lb2 : zlen b2 = k + 1) by (unfold b2; rewrite zlen_firstn; clear - L2 K1 R8; lia).
  assert (Eb2 : sg b2 0 (k + 1) = nf * al b a) by (unfold b2; rewrite sg_firstn by (clear - K1; lia); exact E2).
  pose proof (pow_base_pos k ltac:(clear - K1; lia)) as Pk. pose proof (pow_base_pos (k - 1) ltac:(clear - K1; lia)) as Pk1.
  assert (D2 : div_eq (d0 * base + d1) (nf * al b a) (base ^ (k - 1))).
  { rewrite <- E2. pose proof (div_sg buf2 (k - 1) 2 (k + 1) U2 ltac:(clear - K1; lia) ltac:(lia) ltac:(clear; lia)
      ltac:(replace (k - 1 + 2) with (k + 1) by (clear; lia); apply sg_bound; [exact U2|clear - K1; lia])) as X.
    unfold div_eq in *. rewrite X. change 2 with (1 + 1). rewrite sg_cons by lia. rewrite sg_1. replace (k - 1 + 1) with k by (clear; lia). unfold d0, d1. ring. }
  assert (D1 : div_eq d0 (nf * al b a) (base ^ k)).
  { rewrite <- E2. pose proof (div_sg buf2 k 1 (k + 1) U2 ltac:(clear - K1; lia) ltac:(lia) ltac:(clear; lia) ltac:(apply sg_bound; [exact U2|clear - K1; lia])) as X.
    unfold div_eq in *. rewrite X. apply sg_1. }
  assert (Hd0 : base <= 4 * d0).
  { assert (nf * y <= d0); [|clear - H N4 Bd0; lia]. unfold div_eq in D1. rewrite <- D1. apply Z.div_le_lower_bound; [exact Pk|].
    replace (base ^ k * (nf * y)) with (nf * (base ^ k * y)) by ring. apply Z.mul_le_mono_nonneg_l; [clear - N2; lia|exact TB']. }
  set (X := al a b) in *. set (Y := al b a) in *.
  assert (HY : 0 < Y) by (clear - LB1 Pk; lia). assert (HX : 0 < X) by (clear - HY G; lia).
  set (n := qn a b lnz rnz) in *. assert (En : n = kl - k + b2z (qge a b lnz rnz)) by reflexivity.
  pose proof (b2z_range (qge a b lnz rnz)) as Bg.
  assert (Ei : kl + 1 + (if qge a b lnz rnz then 0 else -1) - 1 = (k + 1) - 2 + Z.of_nat (Z.to_nat n)).
  { clear - En N1. unfold b2z in En. destruct (qge a b lnz rnz); lia. }
  replace (Z.to_nat (kl + 1 + (if qge a b lnz rnz then 0 else -1) - 1 - (k + 1 - 1) + 1)) with (Z.to_nat n) by (rewrite Ei; clear - N1; lia). rewrite Ei. clear Ei.
  assert (G18 : kl + 1 + b2z (qge a b lnz rnz) <= 18) by (clear - Room Bg; lia).
  set (g := b2z (qge a b lnz rnz)) in *. clearbody g n.
  assert (Sle : forall s, 0 <= s < n -> Y * base ^ s <= X).
  { intros s S. apply Z.le_trans with (2 := QG). apply Z.mul_le_mono_nonneg_l; [clear - HY; lia|]. apply Z.pow_le_mono_r; [reflexivity|clear - S; lia]. }
  assert (MM : forall s, 0 <= s -> (nf * X) mod (nf * Y * base ^ (s + 1)) = nf * rest X Y s).
  { intros s S. rewrite <- Z.mul_assoc. apply mul_mod_l; [clear - N2; lia|]. apply Z.mul_pos_pos; [exact HY|apply pow_base_pos; clear - S; lia]. }
  assert (ED : top_two (nf * Y) (k + 1) (d0 * base + d1)) by (unfold top_two; replace (k + 1 - 2) with (k - 1) by (clear; lia); exact D2).
  assert (QC : forall s, 0 <= s -> nf * rest X Y s / (nf * Y * base ^ s) = rest X Y s / (Y * base ^ s)).
  { intros s S. rewrite <- (Z.mul_assoc nf Y). rewrite Z.div_mul_cancel_l; [reflexivity| |clear - N2; lia]. apply Z.neq_sym, Z.lt_neq, Z.mul_pos_pos; [exact HY|apply pow_base_pos; clear - S; lia]. }
  unfold div_eq in D2. replace (k + 1 - 2) with (k - 1) in * by (clear; lia).
  assert (TO : forall s, 1 <= s < Z.of_nat (Z.to_nat n) -> trial_ok (nf * X) (nf * Y) (k + 1) (d0 * base + d1) s).
  { intros s S. unfold trial_ok. rewrite MM by (clear - S; lia). specialize (T1 s ltac:(clear - S; lia) (Sle s ltac:(clear - S; lia))).
    rewrite D2 in T1. rewrite T1. unfold quotient_unit. symmetry. apply QC. clear - S; lia. }
  assert (HV : nf * X < nf * Y * base ^ Z.of_nat (Z.to_nat n)).
  { replace (Z.of_nat (Z.to_nat n)) with n by (clear - N1; lia). rewrite <- Z.mul_assoc. apply Z.mul_lt_mono_pos_l; [clear - N2; lia|exact QL]. }
  intros H. apply bind_inv in H. destruct H as (bf & Er & _). replace (k - 1 + Z.of_nat (Z.to_nat n)) with (k + 1 - 2 + Z.of_nat (Z.to_nat n)) in Er by (clear; lia).
  pose proof (long_rem_small Debug d0 d1 b2 (k + 1) (nf * Y) Hd0 (proj2 Bd0) Bd1 Ub2 Lb2 ltac:(clear - K1; lia) Eb2 ED (Z.to_nat n) buf1 (nf * X) bf eq_refl U1 L1
     ltac:(clear - En G18 N1; lia) (eq_sym E1) HV TO Er) as TS. clear Er.
  apply T2. intros s S HS. assert (SN : s < n).
  { destruct (Z.lt_ge_cases s n) as [|C]; [assumption|exfalso]. assert (base ^ n <= base ^ s) by (apply Z.pow_le_mono_r; [reflexivity|exact C]).
    assert (Y * base ^ n <= Y * base ^ s) by (apply Z.mul_le_mono_nonneg_l; [clear - HY; lia|assumption]). clear - H0 HS QL. lia. }
  specialize (TS s ltac:(clear - S SN; lia)). unfold trial_small in TS. rewrite MM in TS by exact S. unfold div_eq in D1. replace (k + 1 - 1) with k by (clear; lia). rewrite D1.
  apply Z.div_lt_upper_bound; [clear - Hd0; unfold base in *; lia|]. exact TS.
Qed.

(** ** On the common scale *)
Lemma small_aligned a b rnz : wf a -> wf b -> 1 <= rnz -> base ^ (rnz + lsh b a + 1 - 1) <= al b a < base ^ (rnz + lsh b a + 1) ->
  (forall s, 0 <= s -> al b a * base ^ s <= al a b -> first_guess (al a b) (al b a) (rnz + lsh b a + 1) s < base) -> guesses_small (scaled a) (scaled b).
Proof.
  intros Ha Hb R0 BY E len j Hl By Hj G. change scaled with amag in *. pose proof (wf_counts a Ha) as CA. pose proof (wf_counts b Hb) as CB. assert (Hr0 : 0 <= lsh b a) by (unfold lsh; clear; lia).
  rewrite (al_amag' a b Ha Hb) in *. rewrite (al_amag a b Ha Hb) in *. assert (E0 : 0 <= 9 - Z.max (fu a) (fu b)) by (clear - CA CB; lia). set (e := 9 - Z.max (fu a) (fu b)) in *. clearbody e.
  set (x := al a b) in *. set (y := al b a) in *. clearbody x y. set (k := rnz + lsh b a + 1) in *. assert (K1 : 2 <= k) by (clear - R0 Hr0; unfold k; lia). clearbody k.
  pose proof (pow_base_pos (k - 1) ltac:(clear - K1; lia)) as Pk. pose proof (pow_base_pos e E0) as Pe. assert (Hy : 0 < y) by (clear - BY Pk; lia).
  destruct (guess_scale x y k j e K1 Hj E0 Hy) as (F1 & _).
  assert (EL : len = k + e).
  { apply (len_unique (y * base ^ e)); [clear - Hl; lia|clear - K1 E0; lia|exact By|]. replace (k + e - 1) with (k - 1 + e) by (clear; lia). rewrite !(base_pow_split _ e) by (clear - K1 E0; lia).
    split; [apply Z.mul_le_mono_nonneg_r; [clear - Pe; lia|apply BY]|apply Z.mul_lt_mono_pos_r; [exact Pe|apply BY]]. }
  rewrite EL, F1. apply E; [exact Hj|]. apply Z.mul_le_mono_pos_r with (base ^ e); [exact Pe|]. replace (y * base ^ j * base ^ e) with (y * base ^ e * base ^ j) by ring. exact G.
Qed.
Lemma smaller_small x y : x < y -> 0 < y -> guesses_small x y.
Proof. intros H Y len j Hl By Hj G. exfalso. pose proof (pow_base_pos j Hj). nia. Qed.
Lemma equal_small y : 0 < y -> guesses_small y y.
Proof.
  intros Y len j Hl By Hj G. destruct (Z.eq_dec j 0) as [->|J].
  - assert (R : rest y y 0 = y) by (unfold rest; apply Z.mod_small; change (base ^ (0 + 1)) with base; unfold base; lia).
    unfold first_guess. rewrite R. cbv zeta. replace (0 + len - 1) with (len - 1) by lia. rewrite Z.div_same; [reflexivity|].
    destruct (lead_factor y len Hl By) as [F1 F2]. clear - F2. set (d0 := _ / _) in *. clearbody d0. unfold base in *. lia.
  - exfalso. assert (1 < base ^ j) by (apply Z.pow_gt_1; [reflexivity|lia]). nia.
Qed.

(** Long division does not go wrong before the last unit. *)
Definition late (a b : fd) : Prop := guesses_right (scaled a) (scaled b) \/ (forall k, k <= 0 -> group (value a / value b) k <= 999999989).
Lemma late_aligned a b lnz rnz s : wf a -> wf b -> magnitude b <> 0 -> late a b -> lead2 a b lnz rnz -> 1 <= rnz -> al b a < al a b -> 1 <= s -> al b a * base ^ s <= al a b ->
  second_guess (al a b) (al b a) (rnz + lsh b a + 1) s = quotient_unit (al a b) (al b a) s.
Proof.
  intros Ha Hb Nb LT L R1 G S HS. destruct LT as [T|T].
  - apply (guesses_aligned a b lnz rnz s Ha Hb L R1 G ltac:(clear - S; lia) HS), T.
  - destruct (rem_bounds a b lnz rnz Ha Hb L G) as (_ & _ & _ & _ & _ & LB1 & _). assert (R2 : 0 <= lsh b a) by (unfold lsh; clear; lia).
    apply tame_second; [clear - R1 R2; lia|replace (rnz + lsh b a + 1 - 1) with (rnz + lsh b a) by (clear; lia); exact LB1|clear - S; lia|]. apply group_aligned; auto; [clear - S; lia|]. apply T. clear - S. lia.
Qed.

(** A debug build that returns has made small first guesses. *)
Lemma rem_debug_small a b res o : wf a -> wf b -> magnitude b <> 0 -> late a b -> rem_abs Debug a b res = Ret o -> guesses_small (scaled a) (scaled b).
Proof.
  intros Ha Hb Nb LT H. change scaled with amag. assert (PB : 0 < amag b) by (pose proof (amag_nonneg b Hb) as X; pose proof (amag_magnitude_zero b Hb) as Y; clear - X Y Nb; lia).
  pose proof (wf_counts a Ha) as CA. pose proof (wf_counts b Hb) as CB.
  destruct (Z.eq_dec (magnitude a) 0) as [Na|Na]; [apply smaller_small; [|exact PB]; apply (amag_magnitude_zero a Ha) in Na; rewrite Na; exact PB|].
  destruct (rem_plan Debug a b res Ha Hb Na Nb) as (lnz & rnz & L & E0). rewrite E0 in H. clear E0.
  destruct (Z.compare_spec (amag a) (amag b)) as [E|E|E]; [rewrite E; apply equal_small, PB|apply smaller_small; assumption|].
  assert (G : al b a < al a b).
  { rewrite (al_amag a b Ha Hb), (al_amag' a b Ha Hb) in E. apply Z.mul_lt_mono_pos_r in E; [exact E|apply pow_base_pos; clear - CA CB; lia]. }
  pose proof (l2_a0 a b lnz rnz L) as A0. pose proof (l2_b0 a b lnz rnz L) as B0. assert (R18 : lnz + 1 + lsh a b <= 18) by (unfold lsh; clear - A0 CA CB; lia).
  pose proof (magnitude_nonneg b Hb) as Mb. apply bind_inv in H. destruct H as (rn & K & _). destruct (Z.eqb_spec rnz 0) as [->|R0].
  - apply significant_small; [exact Hb|]. exists (magnitude b), 0. rewrite Z.pow_0_r, Z.mul_1_r. split; [|split; [lia|reflexivity]]. split; [clear - Mb Nb; lia|]. rewrite (l2_bm a b lnz 0 L). apply sg_bound; [apply wf_uok, Hb|lia].
  - assert (R1 : 1 <= rnz) by (clear - B0 R0; lia). destruct (rem_bounds a b lnz rnz Ha Hb L G) as (_ & _ & _ & _ & _ & LB1 & _).
    assert (R17 : lnz + 1 + lsh a b <= 17).
    { destruct (Z.eq_dec (lnz + 1 + lsh a b) 18) as [Y|Y]; [exfalso|clear - Y R18; lia]. destruct (rem_long_full Debug a b lnz rnz Ha Hb L G Y (or_introl eq_refl)) as (p & Ep). rewrite Ep in K. discriminate K. }
    refine (rem_long_small a b lnz rnz rn _ Ha Hb L R1 G R17 _ _ K).
    + intros s S HS. apply (late_aligned a b lnz rnz s); assumption.
    + apply (small_aligned a b rnz Ha Hb R1). replace (rnz + lsh b a + 1 - 1) with (rnz + lsh b a) by (clear; lia). exact LB1.
Qed.

(** And if they are small it returns, if there is room. *)
Lemma rem_near_returns a b res : wf a -> wf b -> ~ (value b == 0)%Q -> ~ too_long Debug a b -> (forall k, k <= 0 -> group (value a / value b) k <= 999999989) ->
  guesses_small (scaled a) (scaled b) -> (value a == 0)%Q \/ (Qabs (value b) <= Qabs (value a))%Q \/ fu b <= fu a \/ iu a + fu b <= 9 ->
  exists d, rem_to Debug a b res = Ret (Ok tt, d).
Proof.
  intros Ha Hb Nb TL TG T2 Fit. rewrite !value_zero_iff in * by assumption. unfold rem_to. cbv zeta.
  assert (X : exists d, rem_abs Debug a b res = Ret (Ok tt, d)); [|destruct X as [d E]; rewrite E; rewrite bind_Ret; cbn [finish_sign]; eauto].
  pose proof (wf_counts a Ha) as CA. pose proof (wf_counts b Hb) as CB.
  destruct (Z.eq_dec (magnitude a) 0) as [Na|Na]; [eexists; apply (rem_zero_dividend Debug a b res Ha Hb Na Nb)|].
  destruct (rem_plan Debug a b res Ha Hb Na Nb) as (lnz & rnz & L & E0). rewrite E0. clear E0.
  destruct (Z.compare_spec (amag a) (amag b)) as [E|E|E].
  - eauto.
  - assert (F : fu b <= fu a \/ iu a + fu b <= 9).
    { destruct Fit as [X|[X|[X|X]]]; [contradiction| |auto|auto]. exfalso. apply (Qlt_not_le _ _ (proj2 (Qabs_lt_amag a b Ha Hb) E)), X. }
    destruct (rem_copy_ok a b Ha Hb E F) as (d' & Ed & _). rewrite Ed. eauto.
  - assert (G : al b a < al a b).
    { rewrite (al_amag a b Ha Hb), (al_amag' a b Ha Hb) in E. apply Z.mul_lt_mono_pos_r in E; [exact E|apply pow_base_pos; clear - CA CB; lia]. }
    pose proof (l2_a0 a b lnz rnz L) as A0. pose proof (l2_b0 a b lnz rnz L) as B0. pose proof (magnitude_nonneg b Hb) as Mb.
    assert (R18 : lnz + 1 + lsh a b <= 18) by (unfold lsh; clear - A0 CA CB; lia).
    assert (HY : 0 < al b a) by (unfold al; apply Z.mul_pos_pos; [clear - Mb Nb; lia|apply pow_base_pos; unfold lsh; clear; lia]).
    assert (HF : 0 <= Z.max (frac_digits a) (frac_digits b) <= 81).
    { pose proof (wf_frac a Ha) as X. change (fd_frac a) with (frac_digits a) in X. clear - X CA CB. unfold fu, units_for in *. lia. }
    assert (FIN : forall r nz, uok r -> zlen r = 9 -> lead_num (sg r 0 9) nz -> exists d, rem_finish Debug r nz (units_for (Z.max (frac_digits a) (frac_digits b))) (Z.max (frac_digits a) (frac_digits b)) = Ret (Ok tt, d)).
    { intros r nz U Lr LN. destruct (rem_finish_ok Debug r nz (Z.max (frac_digits a) (frac_digits b)) (sg r 0 9) U Lr HF eq_refl LN) as (d' & Ed & _). eauto. }
    destruct (Z.eqb_spec rnz 0) as [->|R0].
    + destruct (rem_short_ok Debug a b lnz Ha Hb L G R18) as (r & nz & Er & U & Lr & M & LN). rewrite Er. rewrite bind_Ret. apply FIN; assumption.
    + assert (R1 : 1 <= rnz) by (clear - B0 R0; lia). destruct (rem_bounds a b lnz rnz Ha Hb L G) as (_ & _ & _ & _ & _ & LB1 & _).
      assert (R2 : 0 <= lsh b a) by (unfold lsh; clear; lia).
      assert (BY : base ^ (rnz + lsh b a + 1 - 1) <= al b a < base ^ (rnz + lsh b a + 1)) by (replace (rnz + lsh b a + 1 - 1) with (rnz + lsh b a) by (clear; lia); exact LB1).
      assert (LL : 2 <= rnz + lsh b a + 1) by (clear - R1 R2; lia).
      assert (R17 : lnz + 1 + lsh a b <= 17).
      { destruct (Z.eq_dec (lnz + 1 + lsh a b) 18) as [Y|Y]; [exfalso|clear - Y R18; lia]. apply TL, (too_long_iff Debug a b lnz rnz Ha Hb L). auto. }
      destruct (rem_long_near_returns Debug a b lnz rnz Ha Hb L R1 G (or_introl R17)) as (r & nz & Er & U & Lr & LN).
      * intros s S HS. apply (late_aligned a b lnz rnz s); auto. right. exact TG.
      * pose proof (group_aligned a b 1 Ha Hb Nb ltac:(lia) (TG 0 ltac:(lia))) as X. rewrite Z.pow_1_r in X. unfold quotient_unit, rest. rewrite Z.pow_0_r, Z.mul_1_r. change (0 + 1) with 1. rewrite Z.pow_1_r.
        set (t := al a b mod (al b a * base)) in *. clearbody t. set (Y := al b a) in *. clearbody Y.
        assert (QQ : t / Y < base - 1); [|clear - QQ; lia]. apply Z.div_lt_upper_bound; [exact HY|]. clear - X HY. unfold base in *. lia.
      * apply near_second; [exact LL|exact BY|lia].
      * intros _ s S HS. apply (guesses_aligned a b lnz rnz s Ha Hb L R1 G S HS), T2.
      * rewrite Er. rewrite bind_Ret. apply FIN; assumption.
Qed.
