(** * Remainders by any divisor, if the integral part of the quotient is tame. *)
From Coq Require Import ZArith List Bool Lia QArith Qabs Qround.
From Coq Require Import ZifyBool ZifyNat.
From Verif Require Import Rust Model_Base Spec Spec_Div Lib Cmp AddSub Sign QLib Mul MulQ DivBasics Div Div2 Div3 DivQ DivG DivG2.
Import ListNotations.
Open Scope Z_scope.
Ltac Zify.zify_post_hook ::= Z.div_mod_to_equations.

Lemma lead_factor y len : 2 <= len -> base ^ (len - 1) <= y < base ^ len -> let f := norm_factor y len in
  1 <= f /\ base <= 4 * (f * y / base ^ (len - 1)).
Proof.
  intros Hl By f. pose proof (pow_base_pos (len - 1) ltac:(lia)) as P.
  assert (Ht : 1 <= y / base ^ (len - 1) < base).
  { split; [apply Z.div_le_lower_bound; lia|]. apply Z.div_lt_upper_bound; [exact P|]. rewrite Z.mul_comm, <- base_S by lia. replace (len - 1 + 1) with len by lia. apply By. }
  pose proof (nf_facts _ Ht) as NF. cbv zeta in NF. unfold f, norm_factor. pose proof (Z.mul_div_le y (base ^ (len - 1)) P) as M.
  set (t := y / base ^ (len - 1)) in *. clearbody t. set (g := base / (t + 1)) in *. clearbody g. destruct NF as (N1 & _ & N3). split; [lia|].
  apply Z.le_trans with (4 * (g * t)); [lia|]. apply Z.mul_le_mono_nonneg_l; [lia|]. apply Z.div_le_lower_bound; [exact P|].
  replace (base ^ (len - 1) * (g * t)) with (g * (base ^ (len - 1) * t)) by ring. apply Z.mul_le_mono_nonneg_l; lia.
Qed.

Section guess.
  Variables (x y len j : Z).
  Hypothesis Hl : 2 <= len.
  Hypothesis By : base ^ (len - 1) <= y < base ^ len.
  Hypothesis Hj : 0 <= j.
  Let f := norm_factor y len.
  Let P := base ^ (j + len - 2).
  Let D := f * y * base ^ j.
  Let d0 := f * y / base ^ (len - 1).
  Let D2 := f * y / base ^ (len - 2).
  Let W := f * rest x y j.

  Lemma y_pos : 0 < y. Proof. pose proof (pow_base_pos (len - 1) ltac:(clear - Hl; lia)) as Z0. eapply Z.lt_le_trans; [exact Z0|apply By]. Qed.
  Lemma D2_split : exists d1, 0 <= d1 < base /\ D2 = d0 * base + d1.
  Proof.
    exists (D2 mod base). split; [apply Z.mod_pos_bound; reflexivity|]. unfold d0. pose proof (pow_base_pos (len - 2) ltac:(lia)) as Q.
    replace (len - 1) with (len - 2 + 1) by lia. rewrite base_pow_split by lia. rewrite Z.pow_1_r. rewrite <- Z.div_div by (try reflexivity; lia). fold D2.
    pose proof (Z.div_mod D2 base ltac:(discriminate)) as E. clear - E. clearbody D2. unfold base in *. lia.
  Qed.
  Lemma D_window : D2 * P <= D < (D2 + 1) * P.
  Proof.
    unfold P, D. replace (j + len - 2) with (len - 2 + j) by lia. rewrite base_pow_split by lia. pose proof (pow_base_pos (len - 2) ltac:(lia)) as Q. pose proof (pow_base_pos j Hj) as Pj.
    pose proof (Z.mul_div_le (f * y) _ Q) as X. pose proof (Z.mul_succ_div_gt (f * y) _ Q) as Y. fold D2 in X, Y.
    set (u := f * y) in *. set (v := base ^ (len - 2)) in *. set (w := base ^ j) in *. clearbody u v w D2. clear - X Y Pj. split.
    - replace (D2 * (v * w)) with (v * D2 * w) by ring. apply Z.mul_le_mono_nonneg_r; lia.
    - replace ((D2 + 1) * (v * w)) with (v * (D2 + 1) * w) by ring. apply Z.mul_lt_mono_pos_r; lia.
  Qed.

  Lemma tame_second : 10 * (y * base ^ j) <= base * (y * base ^ j - x mod (y * base ^ j)) -> second_guess x y len j = quotient_unit x y j.
  Proof.
    intros G. destruct (lead_factor y len Hl By) as [F1 F2]. fold f d0 in F1, F2. destruct D2_split as (d1 & Hd1 & ED). pose proof D_window as DW. pose proof y_pos as Yp. pose proof (pow_base_pos j Hj) as Pj.
    assert (PY : 0 < y * base ^ j) by (apply Z.mul_pos_pos; assumption).
    unfold second_guess, quotient_unit. cbv zeta. fold f. fold W P D2.
    assert (PP : 0 < P) by (apply pow_base_pos; clear - Hl Hj; lia).
    assert (RM : rest x y j mod (y * base ^ j) = x mod (y * base ^ j)).
    { unfold rest. rewrite base_S by (clear - Hj; lia). replace (y * (base * base ^ j)) with (y * base ^ j * base) by ring. set (Y := y * base ^ j) in *. clearbody Y. clear - PY.
      rewrite Z.rem_mul_r by (unfold base; lia). rewrite (Z.mul_comm Y), Z.mod_add by lia. apply Z.mod_mod. lia. }
    assert (RB : 0 <= rest x y j < y * base ^ j * base).
    { unfold rest. rewrite base_S by (clear - Hj; lia). replace (y * (base * base ^ j)) with (y * base ^ j * base) by ring. apply Z.mod_pos_bound. apply Z.mul_pos_pos; [exact PY|reflexivity]. }
    pose proof (Z.div_mod (rest x y j) (y * base ^ j) ltac:(clear - PY; lia)) as DM. pose proof (Z.mod_pos_bound x (y * base ^ j) PY) as BM. rewrite RM in DM.
    assert (QB : 0 <= rest x y j / (y * base ^ j) <= base - 1).
    { split; [apply Z.div_pos; [apply RB|exact PY]|]. assert (rest x y j / (y * base ^ j) < base); [apply Z.div_lt_upper_bound; [exact PY|apply RB]|]. clear - H. set (q := _ / _) in *. clearbody q. lia. }
    assert (WE : W = f * rest x y j) by reflexivity. assert (DE : D = f * (y * base ^ j)) by (unfold D; ring).
    set (q := rest x y j / (y * base ^ j)) in *. set (r := x mod (y * base ^ j)) in *. set (Y := y * base ^ j) in *. set (R := rest x y j) in *. clearbody q r Y R W D. clear RM.
    destruct (guess_exact D2 P D W W (W / P) q (f * r) 0 0) as [(K1 & K2) _]; try assumption.
    - rewrite ED. clear - F2 Hd1. clearbody d0. unfold base in *. lia.
    - pose proof (Z.mul_div_le W P PP) as X1. pose proof (Z.mul_succ_div_gt W P PP) as X2. clear - X1 X2. set (t := W / P) in *. clearbody t. split; [rewrite Z.mul_comm; exact X1|rewrite Z.mul_comm; replace (t + 1) with (Z.succ t) by lia; exact X2].
    - clear. lia.
    - clear - PP. split; [lia|]. apply Z.lt_le_incl, Z.mul_pos_pos; [reflexivity|exact PP].
    - clear. lia.
    - rewrite WE, DE, DM. ring.
    - rewrite DE. split; [apply Z.mul_nonneg_nonneg; [clear - F1; lia|apply BM]|]. apply Z.mul_lt_mono_pos_l; [clear - F1; lia|apply BM].
    - rewrite DE. replace (base * (f * Y - f * r)) with (f * (base * (Y - r))) by ring. replace (10 * (f * Y)) with (f * (10 * Y)) by ring. apply Z.mul_le_mono_nonneg_l; [clear - F1; lia|exact G].
    - left. reflexivity.
    - assert (D2p : 0 < D2) by (rewrite ED; clear - F2 Hd1; clearbody d0; unfold base in *; lia). symmetry. apply (Z.div_unique_pos (W / P) D2 q (W / P - D2 * q)); [|ring].
      clear - K1 K2 D2p. set (t := W / P) in *. clearbody t. replace ((q + 1) * D2) with (q * D2 + D2) in K2 by ring. rewrite (Z.mul_comm D2 q). set (u := q * D2) in *. clearbody u. lia.
  Qed.

  Lemma tame_first : 10 * (y * base ^ (j + 1)) <= base * (y * base ^ (j + 1) - x mod (y * base ^ (j + 1))) -> first_guess x y len j < base.
  Proof.
    intros G. destruct (lead_factor y len Hl By) as [F1 F2]. fold f d0 in F1, F2. destruct D2_split as (d1 & Hd1 & ED). pose proof D_window as DW. 
    assert (PP : 0 < P) by (apply pow_base_pos; clear - Hl Hj; lia).
    unfold first_guess. cbv zeta. fold f. fold W d0. assert (D0p : 0 < d0) by (clear - F2; clearbody d0; unfold base in *; lia).
    apply Z.div_lt_upper_bound; [exact D0p|]. 
    assert (PE : base ^ (j + len - 1) = base * P) by (unfold P; rewrite <- base_S by (clear - Hl Hj; lia); f_equal; clear; lia). rewrite PE.
    assert (BP : 0 < base * P) by (apply Z.mul_pos_pos; [reflexivity|exact PP]).
    apply (guess_debug d0 d1 P D W W); try assumption.
    - rewrite <- ED. apply DW.
    - pose proof (Z.mul_div_le W (base * P) BP) as X. set (t := W / (base * P)) in *. clearbody t. replace (t * base * P) with (base * P * t) by ring. exact X.
    - clear. lia.
    - fold (rest x y j) in G. replace (D * base) with (f * (y * base ^ (j + 1))) by (unfold D; rewrite base_S by (clear - Hj; lia); ring). unfold W.
      replace (base * (f * (y * base ^ (j + 1)) - f * rest x y j)) with (f * (base * (y * base ^ (j + 1) - rest x y j))) by ring.
      replace (10 * (f * (y * base ^ (j + 1)))) with (f * (10 * (y * base ^ (j + 1)))) by ring. apply Z.mul_le_mono_nonneg_l; [clear - F1; lia|exact G].
  Qed.
End guess.

Lemma group_scaled a b k : wf a -> wf b -> magnitude b <> 0 -> 0 <= k -> tame_integral a b ->
  10 * (scaled b * base ^ k) <= base * (scaled b * base ^ k - scaled a mod (scaled b * base ^ k)).
Proof.
  intros Ha Hb Nb Hk T. pose proof (wf_counts a Ha) as CA. pose proof (wf_counts b Hb) as CB. pose proof (magnitude_nonneg b Hb) as Pb.
  assert (E : scaled b * base ^ k = magnitude b * base ^ (9 - fu b + k)) by (unfold scaled; rewrite base_pow_split by (clear - CB Hk; lia); ring).
  rewrite E. unfold scaled at 1. apply group_upper.
  - apply Z.mul_pos_pos; [clear - Nb Pb; lia|apply pow_base_pos; clear - CB Hk; lia].
  - rewrite <- (group_mod a b (1 - k) (9 - fu a) (9 - fu b + k)); try assumption; [apply T|..]; clear - CA CB Hk; lia.
Qed.

Lemma tame_right a b : wf a -> wf b -> ~ (value b == 0)%Q -> tame_integral a b -> guesses_right (scaled a) (scaled b) /\ guesses_small (scaled a) (scaled b).
Proof.
  intros Ha Hb Nb T. rewrite value_zero_iff in Nb by exact Hb. split; intros len j Hl By Hj _.
  - apply tame_second; try assumption. apply group_scaled; assumption.
  - apply tame_first; try assumption. apply group_scaled; try assumption. lia.
Qed.

(** Deciding it on literals: [K] is below the leading group. *)
Lemma tame_integral_decide K a b : (Qabs (value a / value b) * pow10 (9 * (K - 1)) < 1)%Q ->
  groups_ok 0 999999989 (value a / value b) (Z.to_nat (2 - K)) K = true -> tame_integral a b.
Proof.
  intros H1 H2 k Hk. destruct (Z.lt_ge_cases k K) as [L|L].
  - rewrite group_small; [lia|]. eapply Qle_lt_trans; [|exact H1]. rewrite !(Qmult_comm (Qabs _)). apply Qmult_le_compat_r; [apply pow10_mono; lia|apply Qabs_nonneg].
  - apply (groups_ok_spec _ _ _ _ _ H2). lia.
Qed.
