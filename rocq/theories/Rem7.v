(** * The remainder when only the last guess may be too large: the whole operation. *)
From Coq Require Import ZArith List Bool Lia QArith Qabs.
From Coq Require Import ZifyBool ZifyNat.
From Verif Require Import Rust Tables Model_Base Model_Cmp Model_Arith Spec Spec_Div Lib Cmp AddSub Sign Witness Basics MulAbs Mul DivBasics Div Div2 Div3 Div4 Div5 DivQ DivG DivG2 Rem Rem2 Rem3 Rem4 Rem5 Rem6 RemG AddSubQ MulQ Agree Term Robust Robust2 Robust3 Spec_Rem RemFull.
Import ListNotations.
Open Scope Z_scope.
Ltac Zify.zify_post_hook ::= Z.div_mod_to_equations.
Ltac rmret H := rewrite bind_Ret in H; cbv beta iota in H.

Lemma rem_long_near a b lnz rnz r nz : wf a -> wf b -> lead2 a b lnz rnz -> 1 <= rnz -> al b a < al a b -> lnz + 1 + lsh a b <= 17 \/ (lnz + 1 + lsh a b = 18 /\ qge a b lnz rnz = false) ->
  (forall s, 1 <= s -> al b a * base ^ s <= al a b -> second_guess (al a b) (al b a) (rnz + lsh b a + 1) s = quotient_unit (al a b) (al b a) s) ->
  quotient_unit (al a b) (al b a) 0 + 1 < base ->
  (second_guess (al a b) (al b a) (rnz + lsh b a + 1) 0 = quotient_unit (al a b) (al b a) 0 \/ second_guess (al a b) (al b a) (rnz + lsh b a + 1) 0 = quotient_unit (al a b) (al b a) 0 + 1) ->
  rem_long Release (fd_lsu a) (fd_lsu b) lnz rnz (qge a b lnz rnz) (lsh a b) (lsh b a) = Ret (r, nz) ->
    uok r /\ zlen r = 9 /\ lead_num (sg r 0 9) nz /\ ((sg r 0 9 = al a b mod al b a /\ second_guess (al a b) (al b a) (rnz + lsh b a + 1) 0 = quotient_unit (al a b) (al b a) 0) \/
      (second_guess (al a b) (al b a) (rnz + lsh b a + 1) 0 = quotient_unit (al a b) (al b a) 0 + 1 /\ sg r 0 9 = al b a - al a b mod al b a)).
Proof.
  intros Ha Hb L R0 G Room T1 T0 TG H. assert (R18 : lnz + 1 + lsh a b <= 18) by (clear - Room; lia). pose proof (wf_counts a Ha) as CA. pose proof (wf_counts b Hb) as CB.
  pose proof (wf_zlen a Ha) as LA. pose proof (wf_zlen b Hb) as LB. pose proof (wf_uok a Ha) as Ua. pose proof (wf_uok b Hb) as Ub.
  destruct (rem_bounds a b lnz rnz Ha Hb L G) as (N1 & QL & QG & RB & R8 & LB1 & LB2).
  pose proof (l2_am a b lnz rnz L) as EA. pose proof (l2_bm a b lnz rnz L) as EB. pose proof (l2_bp a b lnz rnz L) as PB.
  pose proof (l2_a0 a b lnz rnz L) as A0. pose proof (l2_b0 a b lnz rnz L) as B0. pose proof (l2_bt a b lnz rnz L) as TB.
  assert (Hl0 : 0 <= lsh a b) by (unfold lsh; clear; lia). assert (Hr0 : 0 <= lsh b a) by (unfold lsh; clear; lia).
  set (y := zn (fd_lsu b) rnz) in *. pose proof (nf_facts y PB) as NF. cbv zeta in NF. destruct NF as (N2 & N3 & N4).
  unfold rem_long in H. cbv zeta in H. fold y in H.
  rewrite i64_ok in H by (clear - PB; unfold base in *; lia). rmret H. change UNIT with base in H. rewrite i64_div_ok in H by (clear - PB; unfold base in *; lia). rmret H.
  assert (ENF : norm_factor (al b a) (rnz + lsh b a + 1) = base / (y + 1)).
  { unfold norm_factor. replace (rnz + lsh b a + 1 - 1) with (rnz + lsh b a) by (clear; lia). rewrite LB2. reflexivity. }
  unfold second_guess in T1, TG |- *. rewrite ENF in T1, TG |- *. cbv zeta in T1, TG |- *. clear ENF LB2.
  set (nf := base / (y + 1)) in *. clearbody nf.
  set (la := firstn (Z.to_nat (lnz + 1)) (fd_lsu a)) in *. set (lb := firstn (Z.to_nat (rnz + 1)) (fd_lsu b)) in *.
  assert (Ela : sg la 0 (lnz + 1) = magnitude a) by (unfold la; rewrite sg_firstn by (clear - A0; lia); symmetry; exact EA).
  assert (Elb : sg lb 0 (rnz + 1) = magnitude b) by (unfold lb; rewrite sg_firstn by (clear - B0; lia); symmetry; exact EB).
  pose proof (pow_base_pos rnz ltac:(clear - B0; lia)) as Pr.
  assert (HnB : nf * magnitude b < base ^ (rnz + 1)).
  { rewrite base_S by (clear - B0; lia). clear - TB N2 N3 Pr. set (P := base ^ rnz) in *. set (B := magnitude b) in *. clearbody P B.
    apply Z.lt_le_trans with (nf * (P * (y + 1))); [apply Z.mul_lt_mono_pos_l; lia|]. replace (nf * (P * (y + 1))) with (nf * (y + 1) * P) by ring.
    apply Z.mul_le_mono_nonneg_r; lia. }
  assert (Ula : uok la) by (apply Forall_firstn, Ua). assert (Ulb : uok lb) by (apply Forall_firstn, Ub).
  assert (Lla : zlen la = lnz + 1) by (unfold la; rewrite zlen_firstn; clear - A0 LA CA; lia).
  assert (Llb : zlen lb = rnz + 1) by (unfold lb; rewrite zlen_firstn; clear - B0 LB CB; lia).
  assert (HnA : lnz + 1 + lsh a b < 18 \/ (lnz + 1 + lsh a b = 18 /\ nf * magnitude a < base ^ (lnz + 1))).
  { destruct Room as [X17|(X & Q)]; [left; clear - X17; lia|right]. split; [exact X|]. apply (norm_dividend a b lnz rnz nf L Q); [clear - N2; lia|exact HnB]. }
  destruct (rem_bufs_ok Release nf la lb (lsh a b) (lsh b a) lnz rnz Ula Ulb N2 Hl0 Hr0 ltac:(clear - A0; lia) ltac:(clear - B0; lia) Lla Llb ltac:(rewrite Elb; exact HnB)
     ltac:(rewrite Ela; exact HnA) ltac:(clear - R8; lia)) as (buf1 & buf2 & E & U1 & L1 & E1 & U2 & L2 & E2).
  rewrite E in H. rmret H. rewrite Ela in E1. rewrite Elb in E2. clear E Ela Elb la lb Ula Ulb Lla Llb.
  rewrite !get_ok in H by (clear - B0 R8 L2 R0 Hr0; lia). rmret H. rmret H. rewrite slice_ok in H by (clear - B0 R8 L2 Hr0; lia). rmret H. cbn [skipn Z.to_nat] in H.
  replace (rnz + 1 + lsh b a - 0) with (rnz + lsh b a + 1) in * by (clear; lia). replace (rnz + 1 + lsh b a) with (rnz + lsh b a + 1) in * by (clear; lia).
  replace (base ^ lsh a b * (nf * magnitude a)) with (nf * al a b) in E1 by (unfold al; ring).
  replace (base ^ lsh b a * (nf * magnitude b)) with (nf * al b a) in E2 by (unfold al; ring).
  assert (HnB' : nf * al b a < base ^ (rnz + lsh b a + 1)).
  { unfold al. replace (rnz + lsh b a + 1) with (rnz + 1 + lsh b a) by (clear; lia). rewrite base_pow_split by (clear - R0 Hr0; lia). rewrite Z.mul_assoc.
    apply Z.mul_lt_mono_pos_r; [apply pow_base_pos, Hr0|exact HnB]. }
  assert (TB' : base ^ (rnz + lsh b a) * y <= al b a).
  { unfold al. rewrite base_pow_split by (clear - R0 Hr0; lia). replace (base ^ rnz * base ^ lsh b a * y) with (base ^ rnz * y * base ^ lsh b a) by ring.
    apply Z.mul_le_mono_nonneg_r; [apply Z.lt_le_incl, pow_base_pos, Hr0|apply TB]. }
  assert (Rlen : rnz + lsh b a <= lnz + lsh a b) by exact RB.
  replace (lnz + 1 + lsh a b) with (lnz + lsh a b + 1) in * by (clear; lia).
  set (k := rnz + lsh b a) in *. assert (K1 : 1 <= k) by (unfold k; clear - R0 Hr0; lia). set (kl := lnz + lsh a b) in *.
  set (d0 := zn buf2 k) in *. set (d1 := zn buf2 (k - 1)) in *.
  pose proof (uok_zn buf2 k U2) as Bd0. pose proof (uok_zn buf2 (k - 1) U2) as Bd1. fold d0 in Bd0. fold d1 in Bd1.
  set (b2 := firstn (Z.to_nat (k + 1)) buf2) in *. assert (Ub2 : uok b2) by (apply Forall_firstn, U2).
  assert (Lb2 : zlen b2 = k + 1) by (unfold b2; rewrite zlen_firstn; clear - L2 K1 R8; lia).
  assert (Eb2 : sg b2 0 (k + 1) = nf * al b a) by (unfold b2; rewrite sg_firstn by (clear - K1; lia); exact E2).
  pose proof (pow_base_pos k ltac:(clear - K1; lia)) as Pk. pose proof (pow_base_pos (k - 1) ltac:(clear - K1; lia)) as Pk1.
  assert (D2 : div_eq (d0 * base + d1) (nf * al b a) (base ^ (k - 1))).
  { rewrite <- E2. pose proof (div_sg buf2 (k - 1) 2 (k + 1) U2 ltac:(clear - K1; lia) ltac:(lia) ltac:(clear; lia)
      ltac:(replace (k - 1 + 2) with (k + 1) by (clear; lia); apply sg_bound; [exact U2|clear - K1; lia])) as X.
    unfold div_eq in *. rewrite X. change 2 with (1 + 1). rewrite sg_cons by lia. rewrite sg_1. replace (k - 1 + 1) with k by (clear; lia). unfold d0, d1. ring. }
  assert (D1 : div_eq d0 (nf * al b a) (base ^ k)).
  { rewrite <- E2. pose proof (div_sg buf2 k 1 (k + 1) U2 ltac:(clear - K1; lia) ltac:(lia) ltac:(clear; lia) ltac:(apply sg_bound; [exact U2|clear - K1; lia])) as X.
    unfold div_eq in *. rewrite X. apply sg_1. }
  assert (Hd0 : base <= 4 * d0).
  { assert (HNY : nf * y <= d0); [|clear - HNY N4 Bd0; lia]. unfold div_eq in D1. rewrite <- D1. apply Z.div_le_lower_bound; [exact Pk|].
    replace (base ^ k * (nf * y)) with (nf * (base ^ k * y)) by ring. apply Z.mul_le_mono_nonneg_l; [clear - N2; lia|exact TB']. }
  set (X := al a b) in *. set (Y := al b a) in *.
  assert (HY : 0 < Y) by (clear - LB1 Pk; lia). assert (HX : 0 < X) by (clear - HY G; lia).
  set (n := qn a b lnz rnz) in *. assert (En : n = kl - k + b2z (qge a b lnz rnz)) by reflexivity.
  pose proof (b2z_range (qge a b lnz rnz)) as Bg.
  assert (Ei : kl + 1 + (if qge a b lnz rnz then 0 else -1) - 1 = (k + 1) - 2 + Z.of_nat (Z.to_nat n)).
  { clear - En N1. unfold b2z in En. destruct (qge a b lnz rnz); lia. }
  replace (Z.to_nat (kl + 1 + (if qge a b lnz rnz then 0 else -1) - 1 - (k + 1 - 1) + 1)) with (Z.to_nat n) in H by (rewrite Ei; clear - N1; lia). rewrite Ei in H. clear Ei.
  assert (G18 : kl + 1 + b2z (qge a b lnz rnz) <= 18) by (destruct Room as [X17|(X17 & Xq)]; [clear - X17 Bg; lia|rewrite Xq; cbn [b2z]; clear - X17; lia]).
  set (g := b2z (qge a b lnz rnz)) in *. clearbody g n.
  assert (Sle : forall s, 0 <= s < n -> Y * base ^ s <= X).
  { intros s S. apply Z.le_trans with (2 := QG). apply Z.mul_le_mono_nonneg_l; [clear - HY; lia|]. apply Z.pow_le_mono_r; [reflexivity|clear - S; lia]. }
  assert (MM : forall s, 0 <= s -> (nf * X) mod (nf * Y * base ^ (s + 1)) = nf * rest X Y s).
  { intros s S. rewrite <- Z.mul_assoc. apply mul_mod_l; [clear - N2; lia|]. apply Z.mul_pos_pos; [exact HY|apply pow_base_pos; clear - S; lia]. }
  assert (ED : top_two (nf * Y) (k + 1) (d0 * base + d1)) by (unfold top_two; replace (k + 1 - 2) with (k - 1) by (clear; lia); exact D2).
  assert (QC : forall s, 0 <= s -> nf * rest X Y s / (nf * Y * base ^ s) = rest X Y s / (Y * base ^ s)).
  { intros s S. rewrite <- (Z.mul_assoc nf Y). rewrite Z.div_mul_cancel_l; [reflexivity| |clear - N2; lia]. apply Z.neq_sym, Z.lt_neq, Z.mul_pos_pos; [exact HY|apply pow_base_pos; clear - S; lia]. }
  unfold div_eq in D2. replace (k + 1 - 2) with (k - 1) in * by (clear; lia). rewrite D2 in TG |- *.
  assert (TO : forall s, 1 <= s < Z.of_nat (Z.to_nat n) -> trial_ok (nf * X) (nf * Y) (k + 1) (d0 * base + d1) s).
  { intros s S. unfold trial_ok. rewrite MM by (clear - S; lia). specialize (T1 s ltac:(clear - S; lia) (Sle s ltac:(clear - S; lia))).
    rewrite D2 in T1. rewrite T1. unfold quotient_unit. symmetry. apply QC. clear - S; lia. }
  pose proof (MM 0 ltac:(lia)) as M0. rewrite Z.add_0_l, Z.pow_1_r in M0.
  pose proof (QC 0 ltac:(lia)) as Q0. rewrite Z.pow_0_r, !Z.mul_1_r in Q0.
  assert (LU : last_unit (nf * Y) (nf * X) = quotient_unit X Y 0) by (unfold last_unit, quotient_unit; rewrite M0, Z.pow_0_r, Z.mul_1_r; exact Q0).
  assert (LG : last_guess d0 d1 (k + 1) (nf * Y) (nf * X) = nf * rest X Y 0 / base ^ (0 + (k + 1) - 2) / (d0 * base + d1)).
  { unfold last_guess. rewrite M0. do 3 f_equal. }
  rewrite <- LG in TG |- *. rewrite <- LU in TG, T0 |- *.
  assert (HV : nf * X < nf * Y * base ^ Z.of_nat (Z.to_nat n)).
  { replace (Z.of_nat (Z.to_nat n)) with n by (clear - N1; lia). rewrite <- Z.mul_assoc. apply Z.mul_lt_mono_pos_l; [clear - N2; lia|exact QL]. }
  apply bind_inv in H. destruct H as (bf & Er & H). replace (k - 1 + Z.of_nat (Z.to_nat n)) with (k + 1 - 2 + Z.of_nat (Z.to_nat n)) in Er by (clear; lia).
  destruct (long_rem_near Release d0 d1 b2 (k + 1) (nf * Y) Hd0 (proj2 Bd0) Bd1 Ub2 Lb2 ltac:(clear - K1; lia) Eb2 ED (Z.to_nat n) buf1 (nf * X) bf U1 L1
     ltac:(clear - En G18 N1; lia) (eq_sym E1) HV TO T0 TG Er) as (Uf & Lf & Ef).
  clear Er TO HV MM Sle T1 ED D1 D2 QC. rewrite mul_mod_l in Ef by (clear - N2 HY; lia).
  pose proof (Z.mod_pos_bound X Y HY) as BR.
  assert (XR : exists R, 0 <= R <= Y /\ sg bf 0 18 = nf * R /\ ((R = X mod Y /\ last_guess d0 d1 (k + 1) (nf * Y) (nf * X) = last_unit (nf * Y) (nf * X)) \/ last_guess d0 d1 (k + 1) (nf * Y) (nf * X) = last_unit (nf * Y) (nf * X) + 1 /\ R = Y - X mod Y)).
  { destruct Ef as [[Ef G1]|[G1 Ef]]; [exists (X mod Y); assert (G2 : last_guess d0 d1 (k + 1) (nf * Y) (nf * X) = last_unit (nf * Y) (nf * X)) by (destruct G1 as [G1|G1]; [exfalso; clear - G1 N1; lia|exact G1])|exists (Y - X mod Y)]; (split; [clear - BR; lia|]); (split; [rewrite Ef; ring|auto]). }
  clear BR Ef. destruct XR as (R & BR & Ef & XR).
  assert (RB2 : nf * R < base ^ (k + 1)).
  { apply Z.le_lt_trans with (nf * Y); [apply Z.mul_le_mono_nonneg_l; [clear - N2; lia|apply BR]|exact HnB']. }
  assert (RB3 : nf * R < base ^ (kl + 1)).
  { apply Z.lt_le_trans with (1 := RB2). apply Z.pow_le_mono_r; [reflexivity|clear - RB; lia]. }
  rewrite bind_Ret in H. cbv beta in H. cbn [debug_assert] in H. rmret H.
  assert (ES : sg bf 0 (kl + 1) = nf * R).
  { rewrite <- Ef. apply sg_top; [exact Uf|clear - R18 RB K1; lia|rewrite Ef; exact RB3]. }
  assert (NN : Z.of_nat (Z.to_nat (kl + 1)) = kl + 1) by (clear - RB K1; lia).
  assert (R9 : nf * R < nf * base ^ 9).
  { apply Z.mul_lt_mono_pos_l; [clear - N2; lia|]. apply Z.le_lt_trans with Y; [apply BR|]. apply Z.lt_le_trans with (1 := proj2 LB1). apply Z.pow_le_mono_r; [reflexivity|clear - R8; lia]. }
  destruct (denorm_ok Release bf nf Uf N2 (Z.to_nat (kl + 1)) 0 zero_units (-1) ltac:(rewrite NN, Lf; clear - R18; lia) ltac:(clear - N2; lia) (uok_repeat0 9) zlen_zero_units
    ltac:(intros; apply zn_zero_units) (nf * R) ltac:(rewrite NN, ES; clear; ring) R9) as (r' & nz' & Ed & Ur & Lr & Sr & _ & LN).
  rewrite Ed in H. rmret H. cbn [debug_assert] in H. rmret H. apply Ret_inj in H. injection H as <- <-.
  rewrite (Z.mul_comm nf R), Z.div_mul in * by (clear - N2; lia).
  assert (S0 : sg zero_units 0 9 = 0) by reflexivity. rewrite S0, Z.add_0_l in Sr.
  split; [exact Ur|]. split; [exact Lr|]. rewrite Sr. split; [apply LN; clear; lia|exact XR].
Qed.

Lemma near_second x y len j : 2 <= len -> base ^ (len - 1) <= y < base ^ len -> 0 <= j ->
  second_guess x y len j = quotient_unit x y j \/ second_guess x y len j = quotient_unit x y j + 1.
  Proof.
    intros Hl By Hj. set (f := norm_factor y len). set (P := base ^ (j + len - 2)). set (D := f * y * base ^ j). set (d0 := f * y / base ^ (len - 1)). set (D2 := f * y / base ^ (len - 2)). set (W := f * rest x y j).
    destruct (lead_factor y len Hl By) as [F1 F2]. fold f d0 in F1, F2. destruct (D2_split x y len j Hl) as (d1 & Hd1 & ED). fold f d0 D2 in ED. pose proof (D_window x y len j Hl Hj) as DW. fold f D2 P D in DW. pose proof (y_pos y len Hl By) as Yp. pose proof (pow_base_pos j Hj) as Pj.
    assert (PY : 0 < y * base ^ j) by (apply Z.mul_pos_pos; assumption).
    unfold second_guess, quotient_unit. cbv zeta. fold f. fold W P D2.
    assert (PP : 0 < P) by (apply pow_base_pos; clear - Hl Hj; lia).
    assert (RM : rest x y j mod (y * base ^ j) = x mod (y * base ^ j)).
    { unfold rest. rewrite base_S by (clear - Hj; lia). replace (y * (base * base ^ j)) with (y * base ^ j * base) by ring. set (Y := y * base ^ j) in *. clearbody Y. clear - PY.
      rewrite Z.rem_mul_r by (unfold base; lia). rewrite (Z.mul_comm Y), Z.mod_add by lia. apply Z.mod_mod. lia. }
    assert (RB : 0 <= rest x y j < y * base ^ j * base).
    { unfold rest. rewrite base_S by (clear - Hj; lia). replace (y * (base * base ^ j)) with (y * base ^ j * base) by ring. apply Z.mod_pos_bound. apply Z.mul_pos_pos; [exact PY|reflexivity]. }
    pose proof (Z.div_mod (rest x y j) (y * base ^ j) ltac:(clear - PY; lia)) as DM. pose proof (Z.mod_pos_bound x (y * base ^ j) PY) as BM. rewrite RM in DM.
    assert (QB : 0 <= rest x y j / (y * base ^ j) <= base - 1).
    { split; [apply Z.div_pos; [apply RB|exact PY]|]. assert (rest x y j / (y * base ^ j) < base); [apply Z.div_lt_upper_bound; [exact PY|apply RB]|]. clear - H. set (q := _ / _) in *. clearbody q. lia. }
    assert (WE : W = f * rest x y j) by reflexivity. assert (DE : D = f * (y * base ^ j)) by (unfold D; ring).
    set (q := rest x y j / (y * base ^ j)) in *. set (r := x mod (y * base ^ j)) in *. set (Y := y * base ^ j) in *. set (R := rest x y j) in *. clearbody q r Y R W D. clear RM.
    destruct (guess_near D2 P D W W (W / P) q (f * r) 0 0) as [(K1 & K2) _]; try assumption.
    - rewrite ED. clear - F2 Hd1. clearbody d0. unfold base in *. lia.
    - pose proof (Z.mul_div_le W P PP) as X1. pose proof (Z.mul_succ_div_gt W P PP) as X2. clear - X1 X2. set (t := W / P) in *. clearbody t. split; [rewrite Z.mul_comm; exact X1|rewrite Z.mul_comm; replace (t + 1) with (Z.succ t) by lia; exact X2].
    - clear. lia.
    - clear - PP. split; [lia|]. apply Z.lt_le_incl, Z.mul_pos_pos; [reflexivity|exact PP].
    - clear. lia.
    - rewrite WE, DE, DM. ring.
    - rewrite DE. split; [apply Z.mul_nonneg_nonneg; [clear - F1; lia|apply BM]|]. apply Z.mul_lt_mono_pos_l; [clear - F1; lia|apply BM].
    - left. reflexivity.
    - assert (D2p : 0 < D2) by (rewrite ED; clear - F2 Hd1; clearbody d0; unfold base in *; lia).
      set (t := W / P) in *. clearbody t. destruct (Z.lt_ge_cases t ((q + 1) * D2)) as [C|C].
      + left. symmetry. apply (Z.div_unique_pos t D2 q (t - D2 * q)); [|ring]. clear - K1 C. replace ((q + 1) * D2) with (q * D2 + D2) in C by ring. rewrite (Z.mul_comm D2 q). set (u := q * D2) in *. clearbody u. lia.
      + right. symmetry. apply (Z.div_unique_pos t D2 (q + 1) (t - D2 * (q + 1))); [|ring]. clear - K2 C. replace ((q + 2) * D2) with ((q + 1) * D2 + D2) in K2 by ring. rewrite (Z.mul_comm D2 (q + 1)). set (u := (q + 1) * D2) in *. clearbody u. lia.
  Qed.

(** What the groups of the quotient say about the aligned operands. *)
Lemma group_aligned a b k : wf a -> wf b -> magnitude b <> 0 -> 0 <= k -> group (value a / value b) (1 - k) <= 999999989 ->
  10 * (al b a * base ^ k) <= base * (al b a * base ^ k - al a b mod (al b a * base ^ k)).
Proof.
  intros Ha Hb Nb Hk T. pose proof (wf_counts a Ha) as CA. pose proof (wf_counts b Hb) as CB. pose proof (magnitude_nonneg b Hb) as Pb.
  assert (L0 : 0 <= lsh b a) by (unfold lsh; clear; lia). assert (L1 : 0 <= lsh a b) by (unfold lsh; clear; lia).
  assert (E : al b a * base ^ k = magnitude b * base ^ (lsh b a + k)) by (unfold al; rewrite base_pow_split by (clear - L0 Hk; lia); ring).
  rewrite E. unfold al. apply group_upper.
  - apply Z.mul_pos_pos; [clear - Nb Pb; lia|apply pow_base_pos; clear - L0 Hk; lia].
  - rewrite <- (group_mod a b (1 - k) (lsh a b) (lsh b a + k)); try assumption; [clear - L0 Hk; lia|unfold lsh; clear; lia].
Qed.

(** ** Which guesses are right *)
Lemma len_unique y l1 l2 : 1 <= l1 -> 1 <= l2 -> base ^ (l1 - 1) <= y < base ^ l1 -> base ^ (l2 - 1) <= y < base ^ l2 -> l1 = l2.
Proof.
  assert (X : forall a b, 1 <= a -> base ^ (a - 1) <= y -> y < base ^ b -> a <= b).
  { intros a b Ha A B. destruct (Z.le_gt_cases a b) as [|C]; [assumption|exfalso]. assert (base ^ b <= base ^ (a - 1)) by (apply Z.pow_le_mono_r; [reflexivity|lia]). lia. }
  intros H1 H2 [A1 B1] [A2 B2]. pose proof (X l1 l2 H1 A1 B2). pose proof (X l2 l1 H2 A2 B1). lia.
Qed.
Lemma right_from_last a b : wf a -> wf b -> magnitude b <> 0 -> (forall k, k <= 0 -> group (value a / value b) k <= 999999989) ->
  (forall len, 2 <= len -> base ^ (len - 1) <= scaled b < base ^ len -> scaled b <= scaled a -> second_guess (scaled a) (scaled b) len 0 = quotient_unit (scaled a) (scaled b) 0) ->
  guesses_right (scaled a) (scaled b).
Proof.
  intros Ha Hb Nb TG H0 len j Hl By Hj L. destruct (Z.eq_dec j 0) as [->|J]; [apply H0; auto; rewrite Z.pow_0_r, Z.mul_1_r in L; exact L|].
  apply tame_second; try assumption. pose proof (wf_counts a Ha) as CA. pose proof (wf_counts b Hb) as CB. pose proof (magnitude_nonneg b Hb) as Pb.
  assert (E : scaled b * base ^ j = magnitude b * base ^ (9 - fu b + j)) by (unfold scaled; rewrite base_pow_split by (clear - CB Hj; lia); ring).
  rewrite E. unfold scaled at 1. apply group_upper.
  - apply Z.mul_pos_pos; [clear - Nb Pb; lia|apply pow_base_pos; clear - CB Hj; lia].
  - rewrite <- (group_mod a b (1 - j) (9 - fu a) (9 - fu b + j)); try assumption; [apply TG|..]; clear - CA CB Hj J; lia.
Qed.
Lemma smaller_right x y : x < y -> 0 < y -> guesses_right x y.
Proof. intros H Y len j Hl By Hj G. exfalso. pose proof (pow_base_pos j Hj). nia. Qed.
Lemma equal_right y : 0 < y -> guesses_right y y.
Proof.
  intros Y len j Hl By Hj G. destruct (Z.eq_dec j 0) as [->|J].
  - assert (R : rest y y 0 = y) by (unfold rest; apply Z.mod_small; change (base ^ (0 + 1)) with base; unfold base; lia).
    unfold second_guess, quotient_unit. rewrite R. rewrite Z.pow_0_r, Z.mul_1_r, (Z.div_same y) by (clear - Y; lia). cbv zeta. replace (0 + len - 2) with (len - 2) by lia. apply Z.div_same.
    destruct (lead_factor y len Hl By) as [F1 F2]. destruct (D2_split y y len 0 Hl) as (d1 & Hd1 & ED). rewrite ED. clear - F2 Hd1. set (d0 := _ / _) in *. clearbody d0. unfold base in *. lia.
  - exfalso. assert (1 < base ^ j) by (apply Z.pow_gt_1; [reflexivity|lia]). nia.
Qed.
Lemma last_aligned a b rnz : wf a -> wf b -> 1 <= rnz -> base ^ (rnz + lsh b a + 1 - 1) <= al b a < base ^ (rnz + lsh b a + 1) ->
  second_guess (al a b) (al b a) (rnz + lsh b a + 1) 0 = quotient_unit (al a b) (al b a) 0 ->
  forall len, 2 <= len -> base ^ (len - 1) <= scaled b < base ^ len -> second_guess (scaled a) (scaled b) len 0 = quotient_unit (scaled a) (scaled b) 0.
Proof.
  intros Ha Hb R0 BY E len Hl By. change scaled with amag in *. pose proof (wf_counts a Ha) as CA. pose proof (wf_counts b Hb) as CB. assert (Hr0 : 0 <= lsh b a) by (unfold lsh; clear; lia).
  rewrite (al_amag' a b Ha Hb) in *. rewrite (al_amag a b Ha Hb) in *. assert (E0 : 0 <= 9 - Z.max (fu a) (fu b)) by (clear - CA CB; lia). set (e := 9 - Z.max (fu a) (fu b)) in *. clearbody e.
  set (x := al a b) in *. set (y := al b a) in *. clearbody x y. set (k := rnz + lsh b a + 1) in *. assert (K1 : 2 <= k) by (clear - R0 Hr0; unfold k; lia). clearbody k.
  pose proof (pow_base_pos (k - 1) ltac:(clear - K1; lia)) as Pk. pose proof (pow_base_pos e E0) as Pe. assert (Hy : 0 < y) by (clear - BY Pk; lia).
  destruct (guess_scale x y k 0 e K1 ltac:(lia) E0 Hy) as (_ & F2 & F3).
  assert (EL : len = k + e).
  { apply (len_unique (y * base ^ e)); [clear - Hl; lia|clear - K1 E0; lia|exact By|]. replace (k + e - 1) with (k - 1 + e) by (clear; lia). rewrite !(base_pow_split _ e) by (clear - K1 E0; lia).
    split; [apply Z.mul_le_mono_nonneg_r; [clear - Pe; lia|apply BY]|apply Z.mul_lt_mono_pos_r; [exact Pe|apply BY]]. }
  rewrite EL, F2, F3. exact E.
Qed.

(** ** What is returned *)
Definition near_value (a b d : fd) : Prop :=
  (amag d = amag a mod amag b /\ guesses_right (amag a) (amag b)) \/ (amag d = amag b - amag a mod amag b /\ 100000000 * amag d < amag b).

Lemma rem_abs_near a b res rs d : wf a -> wf b -> magnitude b <> 0 ->
  (forall k, k <= 0 -> group (value a / value b) k <= 999999989) ->
  rem_abs Release a b res = Ret (rs, d) -> rs = Ok tt /\ wf d /\ clean d /\ neg d = false /\ near_value a b d.
Proof.
  intros Ha Hb Nb TG H. pose proof (wf_counts a Ha) as CA. pose proof (wf_counts b Hb) as CB.
  assert (R : forall x, guesses_right (amag a) (amag b) -> rem_result a b x -> wf x /\ clean x /\ neg x = false /\ near_value a b x) by (intros x T [W C _ N M _]; split; [exact W|]; split; [exact C|]; split; [exact N|left; split; assumption]).
  assert (PB : 0 < amag b) by (pose proof (amag_nonneg b Hb) as X; pose proof (amag_magnitude_zero b Hb) as Y; clear - X Y Nb; lia).
  destruct (Z.eq_dec (magnitude a) 0) as [Na|Na].
  { rewrite (rem_zero_dividend Release a b res Ha Hb Na Nb) in H. apply Ret_inj in H. injection H as <- <-. split; [reflexivity|]. apply R; [apply smaller_right; [|exact PB]; apply (amag_magnitude_zero a Ha) in Na; rewrite Na; exact PB|]. apply zero_result; auto; [|left]; rewrite (amag_magnitude_zero); assumption. }
  destruct (rem_plan Release a b res Ha Hb Na Nb) as (lnz & rnz & L & E0). rewrite E0 in H. clear E0.
  destruct (Z.compare_spec (amag a) (amag b)) as [E|E|E].
  - apply Ret_inj in H. injection H as <- <-. split; [reflexivity|]. apply R; [rewrite E; apply equal_right, PB|]. apply zero_result; auto. rewrite amag_magnitude_zero; assumption.
  - destruct (Z.le_gt_cases (fu b) (fu a)) as [F|F].
    { destruct (rem_copy_ok a b Ha Hb E (or_introl F)) as (d' & Ed & R'). rewrite Ed in H. apply Ret_inj in H. injection H as <- <-. split; [reflexivity|]. apply R; [apply smaller_right; assumption|exact R']. }
    destruct (Z.le_gt_cases (iu a + fu b) 9) as [R9|R9].
    { destruct (rem_copy_ok a b Ha Hb E (or_intror R9)) as (d' & Ed & R'). rewrite Ed in H. apply Ret_inj in H. injection H as <- <-. split; [reflexivity|]. apply R; [apply smaller_right; assumption|exact R']. }
    replace (fu b >? fu a) with true in H by (clear - F; lia). rewrite rem_copy_panics in H by assumption. discriminate H.
  - assert (G : al b a < al a b).
    { rewrite (al_amag a b Ha Hb), (al_amag' a b Ha Hb) in E. apply Z.mul_lt_mono_pos_r in E; [exact E|apply pow_base_pos; clear - CA CB; lia]. }
    pose proof (l2_a0 a b lnz rnz L) as A0. pose proof (l2_b0 a b lnz rnz L) as B0. pose proof (magnitude_nonneg b Hb) as Mb.
    assert (R18 : lnz + 1 + lsh a b <= 18) by (unfold lsh; clear - A0 CA CB; lia).
    assert (HY : 0 < al b a) by (unfold al; apply Z.mul_pos_pos; [clear - Mb Nb; lia|apply pow_base_pos; unfold lsh; clear; lia]).
    apply bind_inv in H. destruct H as ([r nz] & K & H).
    assert (KK : uok r /\ zlen r = 9 /\ lead_num (sg r 0 9) nz /\ ((sg r 0 9 = al a b mod al b a /\ guesses_right (amag a) (amag b)) \/ (sg r 0 9 = al b a - al a b mod al b a /\ 100000000 * sg r 0 9 < al b a))).
    { destruct (Z.eqb_spec rnz 0) as [->|R0].
      - destruct (rem_short_ok Release a b lnz Ha Hb L G R18) as (r' & nz' & Er & U & Lr & M & LN). rewrite Er in K. apply Ret_inj in K. injection K as <- <-. split; [exact U|]. split; [exact Lr|]. split; [exact LN|]. left. split; [exact M|].
        apply significant_right; [exact Hb|]. exists (magnitude b), 0. rewrite Z.pow_0_r, Z.mul_1_r. split; [|split; [lia|reflexivity]]. split; [clear - Mb Nb; lia|]. rewrite (l2_bm a b lnz 0 L). eapply Z.lt_le_trans; [apply sg_bound; [apply wf_uok, Hb|lia]|]. vm_compute. discriminate.
      - assert (R1 : 1 <= rnz) by (clear - B0 R0; lia). destruct (rem_bounds a b lnz rnz Ha Hb L G) as (_ & _ & _ & _ & _ & LB1 & _).
        assert (R2 : 0 <= lsh b a) by (unfold lsh; clear; lia).
        assert (BY : base ^ (rnz + lsh b a + 1 - 1) <= al b a < base ^ (rnz + lsh b a + 1)) by (replace (rnz + lsh b a + 1 - 1) with (rnz + lsh b a) by (clear; lia); exact LB1).
        assert (LL : 2 <= rnz + lsh b a + 1) by (clear - R1 R2; lia).
        assert (R17 : lnz + 1 + lsh a b <= 17 \/ (lnz + 1 + lsh a b = 18 /\ qge a b lnz rnz = false)).
        { destruct (Z.eq_dec (lnz + 1 + lsh a b) 18) as [Y|Y]; [right|left; clear - Y R18; lia]. split; [exact Y|]. destruct (qge a b lnz rnz) eqn:Q; [exfalso|reflexivity].
          destruct (rem_long_full Release a b lnz rnz Ha Hb L G Y (or_intror Q)) as (p & Ep). rewrite Q in Ep. rewrite Ep in K. discriminate K. }
        destruct (rem_long_near a b lnz rnz r nz Ha Hb L R1 G R17) as (U & Lr & LN & M).
        + intros s S _. apply tame_second; [exact LL|exact BY|clear - S; lia|]. apply group_aligned; auto; [clear - S; lia|]. apply TG. clear - S. lia.
        + pose proof (group_aligned a b 1 Ha Hb Nb ltac:(lia) (TG 0 ltac:(lia))) as X. rewrite Z.pow_1_r in X. unfold quotient_unit, rest. rewrite Z.pow_0_r, Z.mul_1_r. change (0 + 1) with 1. rewrite Z.pow_1_r.
          set (t := al a b mod (al b a * base)) in *. clearbody t. set (Y := al b a) in *. clearbody Y.
          assert (t / Y < base - 1); [|clear - H0; lia]. apply Z.div_lt_upper_bound; [exact HY|]. clear - X HY. unfold base in *. lia.
        + apply near_second; [exact LL|exact BY|lia].
        + exact K.
        + split; [exact U|]. split; [exact Lr|]. split; [exact LN|]. destruct M as [[M M']|[M1 M2]]; [left; split; [exact M|]|right].
          { apply right_from_last; auto. intros len Hl By _. revert len Hl By. apply (last_aligned a b rnz); assumption. }
          split; [exact M2|].
          destruct (Z.lt_ge_cases (100000000 * sg r 0 9) (al b a)) as [C|C]; [exact C|exfalso].
          assert (X : second_guess (al a b) (al b a) (rnz + lsh b a + 1) 0 = quotient_unit (al a b) (al b a) 0).
          { apply tame_second; [exact LL|exact BY|lia|]. rewrite Z.pow_0_r, !Z.mul_1_r. rewrite <- M2. set (v := sg r 0 9) in *. clearbody v. clear - C. unfold base. lia. }
          rewrite X in M1. clear - M1. lia. }
    destruct KK as (U & Lr & LN & M).
    assert (HF : 0 <= Z.max (frac_digits a) (frac_digits b) <= 81).
    { pose proof (wf_frac a Ha) as X. change (fd_frac a) with (frac_digits a) in X. clear - X CA CB. unfold fu, units_for in *. lia. }
    destruct (rem_finish_ok Release r nz (Z.max (frac_digits a) (frac_digits b)) (sg r 0 9) U Lr HF eq_refl LN) as (d' & Ed & W & C & T & N & F & Mg & _).
    rewrite Ed in H. apply Ret_inj in H. injection H as <- <-. split; [reflexivity|]. split; [exact W|]. split; [exact C|]. split; [exact N|].
    assert (EU : fu d' = Z.max (fu a) (fu b)) by (unfold fu; rewrite F; unfold units_for; clear; lia).
    pose proof (pow_base_pos (9 - Z.max (fu a) (fu b)) ltac:(clear - CA CB; lia)) as P.
    assert (DV : amag d' = sg r 0 9 * base ^ (9 - Z.max (fu a) (fu b))) by (unfold amag; rewrite EU, Mg; reflexivity).
    assert (MV : amag a mod amag b = al a b mod al b a * base ^ (9 - Z.max (fu a) (fu b))).
    { rewrite (al_amag a b Ha Hb), (al_amag' a b Ha Hb). rewrite Z.mul_mod_distr_r by (clear - P HY; lia). reflexivity. }
    assert (BV : amag b = al b a * base ^ (9 - Z.max (fu a) (fu b))) by (rewrite (al_amag' a b Ha Hb); reflexivity).
    unfold near_value. destruct M as [[M M']|[M1 M2]]; [left; split; [rewrite DV, MV, M; reflexivity|exact M']|right].
    rewrite DV, MV, BV. split; [rewrite M1; ring|]. rewrite Z.mul_assoc. apply Z.mul_lt_mono_pos_r; assumption.
Qed.

Lemma rem_to_near_right m a b res rs d : wf a -> wf b -> ~ (value b == 0)%Q ->
  (forall k, k <= 0 -> group (value a / value b) k <= 999999989) ->
  rem_to m a b res = Ret (rs, d) -> rs = Ok tt /\ (Qabs (value d) < Qabs (value b))%Q /\
  (((exists q : Z, (value a == value b * inject_Z q + value d)%Q) /\ guesses_right (scaled a) (scaled b)) \/
   (~ (value d == 0)%Q /\ (100000000 * Qabs (value d) < Qabs (value b))%Q /\ exists q : Z, (value a == value b * inject_Z q - value d)%Q)).
Proof.
  intros Ha Hb Nb TG H. assert (HR : rem_to Release a b res = Ret (rs, d)) by (destruct m; [apply (simr_ret _ _ _ (s_rem_to a b res)), H|exact H]). clear H.
  rewrite value_zero_iff in Nb by assumption. unfold rem_to in HR. rewrite is_neg_ok in HR by (apply wf_intg; assumption). cbv zeta in HR.
  apply bind_inv in HR. destruct HR as ([rs' d'] & E & HR). destruct (rem_abs_near a b res rs' d' Ha Hb Nb TG E) as (-> & W & C & P & NV).
  cbn [finish_sign] in HR. apply Ret_inj in HR. injection HR as <- HR. split; [reflexivity|]. set (s := neg a) in *.
  assert (SD : same_digits d' d) by (rewrite <- HR; destruct s; [apply check_zero_same, W|repeat split]).
  assert (WD : wf d) by (rewrite <- HR; destruct s; [apply check_zero_wf, W|exact W]).
  assert (ND : neg d = s && negb (magnitude d =? 0)).
  { rewrite (same_magnitude _ _ SD). rewrite <- HR. destruct s; [rewrite check_zero_neg by assumption; reflexivity|rewrite P; reflexivity]. }
  clear HR. unfold near_value in NV. rewrite <- (same_amag _ _ SD) in NV.
  pose proof (amag_nonneg b Hb) as B0. assert (NB : amag b <> 0) by (rewrite amag_magnitude_zero; assumption). assert (B1 : 0 < amag b) by (clear - B0 NB; lia).
  pose proof (Z.mod_pos_bound (amag a) (amag b) B1) as BR. pose proof (Z.div_mod (amag a) (amag b) NB) as DM.
  assert (NumD : num d = if s then - amag d else amag d).
  { unfold num. rewrite ND. destruct s; [|reflexivity]. cbn [andb]. destruct (Z.eqb_spec (magnitude d) 0) as [X|X]; cbn [negb]; [|reflexivity]. apply (amag_magnitude_zero d WD) in X. rewrite X. reflexivity. }
  pose proof (amag_nonneg d WD) as D0.
  split; [apply Qabs_lt_amag; [exact WD|exact Hb|]; clear - NV BR B1 D0; destruct NV as [[NV _]|NV]; lia|].
  assert (EQ : forall q e, amag a = amag b * q + e * amag d -> exists q' : Z, (value a == value b * inject_Z q' + inject_Z e * value d)%Q).
  { intros q e X. exists (if xorb s (neg b) then - q else q).
    rewrite (value_num a Ha), (value_num b Hb), (value_num d WD). rewrite NumD. unfold num. fold s.
    clear - X. unfold Qeq, Qplus, Qmult, inject_Z. cbn [Qnum Qden]. generalize (Z.to_pos (base ^ 9)). intros p.
    rewrite ?Pos.mul_1_r, ?Pos.mul_1_l, ?Pos2Z.inj_mul. rewrite X. destruct s, (neg b); cbn [xorb]; ring. }
  set (q := amag a / amag b) in *. clearbody q. destruct NV as [[M MG]|[M1 M2]].
  - left. split; [|exact MG]. destruct (EQ q 1) as [q' X]; [rewrite M; clear - DM; lia|]. exists q'. rewrite X. change (inject_Z 1) with 1%Q. rewrite Qmult_1_l. reflexivity.
  - right. split; [intros X0; apply (value_zero_iff d WD) in X0; apply (amag_magnitude_zero d WD) in X0; clear - X0 M1 BR; lia|]. split.
    + rewrite !Qabs_value by assumption. clear - M2. revert M2. generalize (amag d) (amag b). intros x y M.
      unfold Qlt, Qmult. cbn [Qnum Qden]. pose proof (Pos2Z.is_pos P9). unfold P9 in *. generalize dependent (Z.to_pos (base ^ 9)). intros p Hp. rewrite Pos.mul_1_l. nia.
    + destruct (EQ (q + 1) (-1)) as [q' X]; [rewrite M1; rewrite DM at 1; ring|]. exists q'. rewrite X. change (inject_Z (-1)) with (- (1))%Q. ring.
Qed.
Lemma rem_to_near m a b res rs d : wf a -> wf b -> ~ (value b == 0)%Q ->
  (forall k, k <= 0 -> group (value a / value b) k <= 999999989) ->
  rem_to m a b res = Ret (rs, d) -> rs = Ok tt /\ (Qabs (value d) < Qabs (value b))%Q /\
  ((exists q : Z, (value a == value b * inject_Z q + value d)%Q) \/
   ((100000000 * Qabs (value d) < Qabs (value b))%Q /\ exists q : Z, (value a == value b * inject_Z q - value d)%Q)).
Proof. intros Ha Hb Nb TG H. destruct (rem_to_near_right m a b res rs d Ha Hb Nb TG H) as (E1 & E2 & [[E3 _]|[_ E3]]); auto. Qed.
