(** * The last unit of a long division, guessed as 10^9: the multiply-and-subtract step finds it too large and corrects it. *)
From Coq Require Import ZArith List Bool Lia QArith.
From Coq Require Import ZifyBool ZifyNat.
From Verif Require Import Rust Tables Model_Base Model_Cmp Model_Arith Spec Lib Cmp AddSub Sign Mul DivBasics Div Div2 Div3 DivG Robust Robust2 DivP.
Import ListNotations.
Open Scope Z_scope.
Ltac Zify.zify_post_hook ::= Z.div_mod_to_equations.

Lemma step_bounds_le q y c : 0 <= q <= base -> 0 <= y < base -> 0 <= c < base -> 0 <= q * y + c < base * base.
Proof. unfold base. nia. Qed.

  Lemma mul_sub_one_le m buf ms d q c b : uok buf -> ms < zlen buf -> 0 <= d < base -> 0 <= q <= base -> 0 <= c < base -> -1 <= b <= 0 ->
    forall t, mul_sub m (d :: t) q buf ms c b =
      ('(s, b') <- sub_with_borrow m (dg buf ms) ((q * d + c) mod base) b ;;
       mul_sub m t q (if ms <? 0 then buf else upd (Z.to_nat ms) s buf) (ms + 1) ((q * d + c) / base) b').
  Proof.
    intros U L Hd Hq Hc Hb t. cbn [mul_sub].
    pose proof (step_bounds_le q d c Hq Hd Hc) as B. pose proof (step_bounds_le q d 0 Hq Hd ltac:(unfold base; lia)) as B'.
    rewrite !Z.add_0_r in *. rewrite base2 in *. rewrite i64_ok by (clear - B'; lia). mret. rewrite i64_ok by (clear - B; lia). mret.
    set (v := q * d + c) in *. clearbody v. change UNIT with base. rewrite i64_div_ok by (clear - B; unfold base in *; lia). mret.
    pose proof (Z.div_mod v base ltac:(unfold base; lia)) as Dm. pose proof (Z.mod_pos_bound v base ltac:(reflexivity)) as Hm.
    rewrite i64_ok by (clear - B Dm Hm; unfold base in *; lia). mret. rewrite i64_ok by (clear - B Dm Hm; unfold base in *; lia). mret.
    replace (v - v / base * base) with (v mod base) by (clear - Dm; lia). rewrite as_i32_id by (clear - Hm; unfold base in *; lia).
    unfold dg. destruct (Z.ltb_spec ms 0) as [N|N]; [reflexivity|]. rewrite get_ok by lia. mret.
    destruct (sub_with_borrow m (zn buf ms) (v mod base) b) as [[s b']|p]; [|reflexivity]. cbn [bind]. rewrite set_ok by lia. reflexivity.
  Qed.
Lemma mul_sub_gen_le m q : 0 <= q <= base -> forall b2 buf ms c b, uok buf -> uok b2 -> ms + zlen b2 <= zlen buf -> 0 <= c < base -> -1 <= b <= 0 ->
  exists buf' c' b' lo, mul_sub m b2 q buf ms c b = Ret (buf', c', b') /\ wrote buf buf' (Z.max 0 ms) (Z.max 0 (ms + zlen b2) - Z.max 0 ms) /\
    0 <= c' < base /\ -1 <= b' <= 0 /\ let d := Z.min (zlen b2) (Z.max 0 (- ms)) in 0 <= lo < base ^ d /\
    lo + base ^ d * sg buf' (Z.max 0 ms) (zlen b2 - d) =
      base ^ d * sg buf (Z.max 0 ms) (zlen b2 - d) - q * sg b2 0 (zlen b2) - c + b + base ^ zlen b2 * (c' - b').
Proof.
  intros Hq. induction b2 as [|x b2 IH]; intros buf ms c b U U2 L Hc Hb.
  - exists buf, c, b, 0. change (zlen []) with 0. cbv zeta. replace (Z.min 0 (Z.max 0 (- ms))) with 0 by lia. rewrite Z.pow_0_r. rewrite !sg_nil by lia.
    split; [reflexivity|]. split; [apply wrote_refl, U|]. lia.
  - apply uok_cons in U2. destruct U2 as [Hx U2]. rewrite zlen_cons in *. pose proof (zlen_nonneg b2) as NN.
    rewrite mul_sub_one_le by (try assumption; clear - L NN; lia).
    pose proof (step_bounds_le q x c Hq Hx Hc) as B.
    assert (Dv : exists v, v = q * x + c) by eauto. destruct Dv as (v & Dv). rewrite <- Dv in *.
    pose proof (Z.div_mod v base ltac:(unfold base; lia)) as Dm. pose proof (Z.mod_pos_bound v base ltac:(reflexivity)) as Hm.
    assert (Hc1 : 0 <= v / base < base) by (clear - B; unfold base in *; lia).
    set (c1 := v / base) in *. set (v0 := v mod base) in *. clearbody c1 v0.
    destruct (sub_with_borrow_ok m (dg buf ms) v0 b (dg_bound _ _ U) Hm Hb) as (s & b1 & E & Hs & Hb1 & Es). rewrite E. mret.
    assert (W1 : wrote buf (if ms <? 0 then buf else upd (Z.to_nat ms) s buf) (Z.max 0 ms) (Z.max 0 (ms + 1) - Z.max 0 ms)).
    { destruct (Z.ltb_spec ms 0) as [N|N]; [apply wrote_refl, U|]. replace (Z.max 0 ms) with ms by lia. replace (Z.max 0 (ms + 1) - ms) with 1 by lia. apply wrote_upd; [exact U|lia|exact Hs]. }
    set (buf1 := if ms <? 0 then buf else upd (Z.to_nat ms) s buf) in *. pose proof (wrote_zlen _ _ _ _ W1) as L1.
    destruct (IH buf1 (ms + 1) c1 b1) as (buf' & c' & b' & lo & E' & W' & Hc' & Hb' & HL & ES); [apply W1|exact U2|lia|exact Hc1|exact Hb1|].
    clear IH. cbv zeta in ES, HL. rewrite E'.
    destruct (Z.ltb_spec ms 0) as [N|N].
    + exists buf', c', b', (s + base * lo). split; [reflexivity|]. split; [|split; [exact Hc'|split; [exact Hb'|]]].
      { eapply wrote_trans; [exact W1|exact W'|lia..]. }
      cbv zeta. set (d := Z.min (zlen b2) (Z.max 0 (- (ms + 1)))) in *. replace (Z.min (1 + zlen b2) (Z.max 0 (- ms))) with (d + 1) by lia.
      assert (D0 : 0 <= d) by lia. rewrite base_S by exact D0. replace (1 + zlen b2 - (d + 1)) with (zlen b2 - d) by lia.
      replace (Z.max 0 ms) with 0 by lia. replace (Z.max 0 (ms + 1)) with 0 in ES by lia.
      split; [clear - Hs HL; unfold base in *; lia|]. rewrite sg_cons_list by exact NN. replace (1 + zlen b2) with (zlen b2 + 1) by lia. rewrite base_S by exact NN.
      unfold dg in Es. replace (ms <? 0) with true in Es by lia. unfold buf1 in ES.
      clear - ES Es Dv Dm. set (P := base ^ d) in *. set (Q := base ^ zlen b2) in *. set (t := sg b2 0 (zlen b2)) in *. set (s' := sg buf' 0 (zlen b2 - d)) in *. set (s0 := sg buf 0 (zlen b2 - d)) in *.
      clearbody P Q t s' s0. replace (s + base * lo + base * P * s') with (s + base * (lo + P * s')) by ring. rewrite ES.
      replace s with (0 - v0 + b - base * b1) by (clear - Es; lia). replace v0 with (q * x + c - base * c1) by (clear - Dv Dm; lia). ring.
    + exists buf', c', b', 0. split; [reflexivity|]. split; [|split; [exact Hc'|split; [exact Hb'|]]].
      { eapply wrote_trans; [exact W1|exact W'|lia..]. }
      cbv zeta. replace (Z.min (1 + zlen b2) (Z.max 0 (- ms))) with 0 by lia. replace (Z.min (zlen b2) (Z.max 0 (- (ms + 1)))) with 0 in * by lia.
      rewrite Z.pow_0_r in *. assert (lo = 0) as -> by (clear - HL; lia). split; [clear; lia|]. rewrite !Z.sub_0_r in *. replace (Z.max 0 ms) with ms in * by lia. replace (Z.max 0 (ms + 1)) with (ms + 1) in * by lia.
      rewrite !sg_cons by exact NN. fold (sg b2 0 (zlen b2)). rewrite <- (sg_cons (x :: b2) 0 (zlen b2)) by exact NN. rewrite sg_cons_list by exact NN. replace (1 + zlen b2) with (zlen b2 + 1) by lia. rewrite base_S by exact NN.
      assert (Z1 : zn buf' ms = s). { destruct W' as (_ & _ & F). rewrite F by lia. unfold buf1. apply zn_upd_eq. lia. }
      assert (Z2 : sg buf1 (ms + 1) (zlen b2) = sg buf (ms + 1) (zlen b2)) by (unfold buf1; apply sg_upd_out; lia).
      rewrite Z2 in ES. rewrite Z1. unfold dg in Es. replace (ms <? 0) with false in Es by lia.
      clear - ES Es Dv Dm. set (Q := base ^ zlen b2) in *. set (t := sg b2 0 (zlen b2)) in *. set (s' := sg buf' (ms + 1) (zlen b2)) in *. set (s0 := sg buf (ms + 1) (zlen b2)) in *.
      clearbody Q t s' s0. replace s' with (1 * s0 - q * t - c1 + b1 + Q * (c' - b')) by (clear - ES; lia).
      replace s with (zn buf ms - v0 + b - base * b1) by (clear - Es; lia). replace v0 with (q * x + c - base * c1) by (clear - Dv Dm; lia). ring.
Qed.

Lemma mul_sub_window_le m b2 q buf i rnz : 0 <= q <= base -> uok buf -> uok b2 -> zlen b2 = rnz + 1 -> 0 <= rnz -> 0 <= i -> i + 1 < zlen buf ->
  exists buf' c b lo, let d := Z.max 0 (rnz - i) in mul_sub m b2 q buf (i - rnz) 0 0 = Ret (buf', c, b) /\ wrote buf buf' 0 (i + 1) /\
    0 <= c < base /\ -1 <= b <= 0 /\ 0 <= lo < base ^ d /\
    lo + base ^ d * sg buf' 0 (i + 1) =
      base ^ d * sg buf 0 (i + 2) - q * sg b2 0 (rnz + 1) * base ^ Z.max 0 (i - rnz) - base ^ (d + i + 1) * (b + (zn buf (i + 1) - c)).
Proof.
  intros Hq U U2 L2 Hr Hi Li. destruct (mul_sub_gen_le m q Hq b2 buf (i - rnz) 0 0 U U2 ltac:(lia) ltac:(unfold base; lia) ltac:(lia)) as (buf' & c & b & lo & E & W & Hc & Hb & HL & ES).
  exists buf', c, b, lo. cbv zeta in *. rewrite L2 in *. split; [exact E|]. split; [eapply wrote_trans; [apply (wrote_refl _ 0 0 U)|exact W|lia..]|]. split; [exact Hc|]. split; [exact Hb|].
  replace (i + 2) with (i + 1 + 1) by lia. rewrite (sg_snoc buf 0 (i + 1)) by lia. replace (0 + (i + 1)) with (i + 1) by lia. set (x := zn buf (i + 1)). clearbody x.
  destruct (Z.le_gt_cases 0 (i - rnz)) as [N|N].
  - replace (Z.max 0 (rnz - i)) with 0 by lia. replace (Z.min (rnz + 1) (Z.max 0 (- (i - rnz)))) with 0 in * by lia. replace (Z.max 0 (i - rnz)) with (i - rnz) in * by lia.
    split; [exact HL|]. rewrite Z.pow_0_r in *. rewrite !Z.sub_0_r in ES. assert (lo = 0) as -> by (clear - HL; lia).
    assert (X : forall l, sg l 0 (i + 1) = sg l 0 (i - rnz) + base ^ (i - rnz) * sg l (i - rnz) (rnz + 1)).
    { intros l. replace (i + 1) with (i - rnz + (rnz + 1)) by lia. apply sg_app; lia. }
    rewrite !X. rewrite (wrote_sg _ _ _ _ 0 (i - rnz) W) by lia.
    assert (EP : base ^ (i + 1) = base ^ (i - rnz) * base ^ (rnz + 1)) by (rewrite <- base_pow_split by lia; f_equal; lia).
    replace (0 + i + 1) with (i + 1) by lia. rewrite EP. clear - ES.
    set (P := base ^ (i - rnz)) in *. set (Q := base ^ (rnz + 1)) in *. set (t := sg b2 0 (rnz + 1)) in *. set (s' := sg buf' (i - rnz) (rnz + 1)) in *. set (s0 := sg buf (i - rnz) (rnz + 1)) in *. set (w := sg buf 0 (i - rnz)) in *.
    clearbody P Q t s' s0 w. replace s' with (1 * s0 - q * t - 0 + 0 + Q * (c - b)) by lia. ring.
  - replace (Z.max 0 (rnz - i)) with (rnz - i) by lia. replace (Z.min (rnz + 1) (Z.max 0 (- (i - rnz)))) with (rnz - i) in * by lia. replace (Z.max 0 (i - rnz)) with 0 in * by lia.
    split; [exact HL|]. rewrite Z.pow_0_r. replace (rnz + 1 - (rnz - i)) with (i + 1) in ES by lia. rewrite ES.
    assert (EP : base ^ (rnz + 1) = base ^ (rnz - i) * base ^ (i + 1)) by (rewrite <- base_pow_split by lia; f_equal; lia).
    replace (rnz - i + i + 1) with (rnz + 1) by lia. rewrite EP. ring.
Qed.

(** If the window begins with the divisor's two leading units, the guess is 10^9. *)
Lemma guess_base buf i d0 d1 : uok buf -> 0 <= i -> i + 1 < zlen buf -> zlen buf <= 100 -> base <= 2 * d0 -> d0 < base -> 0 <= d1 < base ->
  zn buf (i + 1) * base + zn buf i = d0 * base + d1 -> guess_qhat Release buf i d0 d1 = Ret base.
Proof.
  intros U Hi Li Lb H0 H0' H1 ER. unfold guess_qhat. rewrite as_usize_id by lia. rewrite usize_ok by lia. mret.
  rewrite get_ok by lia. mret. replace (i >=? 0) with true by lia. rewrite get_ok by lia. mret.
  pose proof (uok_zn buf (i + 1) U) as B0. pose proof (uok_zn buf i U) as B1. pose proof (dg_bound buf (i - 1) U) as B2.
  change UNIT with base. rewrite i64_ok by (clear - B0; unfold base in *; lia). mret. rewrite ER.
  rewrite i64_ok by (clear - H0' H0 H1; unfold base in *; lia). mret.
  rewrite i64_div_ok by (clear - H0' H0 H1; unfold base in *; lia). mret. cbn [debug_assert].
  assert (E2 : (if i >? 0 then get buf (i - 1) else Ret 0) = Ret (dg buf (i - 1))).
  { unfold dg. destruct (Z.gtb_spec i 0); [replace (i - 1 <? 0) with false by lia; apply get_ok; lia|replace (i - 1 <? 0) with true by lia; reflexivity]. }
  rewrite E2. clear E2. set (u2 := dg buf (i - 1)) in *. clearbody u2. clear B0 B1 ER Li Lb Hi U buf i.
  assert (EK : exists k, 0 <= k <= 1 /\ (d0 * base + d1) / d0 = base + k /\ 0 <= d1 - k * d0 < d0).
  { destruct (Z.lt_ge_cases d1 d0) as [C|C].
    - exists 0. split; [lia|]. split; [|lia]. symmetry. apply (Z.div_unique _ _ _ d1); [left; lia|lia].
    - exists 1. assert (d1 - d0 < d0) by (clear - H0 H1; lia). split; [lia|]. split; [|lia]. symmetry. apply (Z.div_unique _ _ _ (d1 - d0)); [left; lia|lia]. }
  destruct EK as (k & K & -> & KR). assert (KD : k = 0 \/ k = 1) by (clear - K; lia).
  rewrite i64_ok by (destruct KD as [-> | ->]; clear - H0 H0'; unfold base in *; lia). mret.
  rewrite i64_ok by (destruct KD as [-> | ->]; clear - H0 H0' H1; unfold base in *; lia). mret. mret.
  change qhat_fuel with 8%nat.
  assert (LAST : forall f, qhat_loop Release (S f) base d1 d0 d1 u2 = Ret base).
  { intros f. cbn [qhat_loop]. change UNIT with base. rewrite i64_ok by (clear - H1; unfold base in *; lia). mret. rewrite i64_ok by (clear - H1; unfold base in *; lia). mret.
    rewrite i64_ok by (clear - H1 B2; unfold base in *; lia). mret. replace (base * d1 >? d1 * base + u2) with false by (clear - B2; lia). reflexivity. }
  destruct KD as [-> | ->].
  - replace (base + 0) with base by lia. replace (d0 * base + d1 - base * d0) with d1 by lia. apply LAST.
  - replace (d0 * base + d1 - (base + 1) * d0) with (d1 - d0) by lia. change 8%nat with (S (S 6)). generalize (LAST 6%nat). generalize (S 6). intros f LF. cbn [qhat_loop]. change UNIT with base.
    rewrite (i64_ok Release ((base + 1) * d1)) by (clear - H1; unfold base in *; lia). mret. rewrite (i64_ok Release ((d1 - d0) * base)) by (clear - KR H0'; unfold base in *; lia). mret.
    mret. rewrite (i64_ok Release ((d1 - d0) * base + u2)) by (clear - KR H0' B2; unfold base in *; lia). mret.
    replace ((base + 1) * d1 >? (d1 - d0) * base + u2) with true by (clear - H0 H1 B2; unfold base in *; lia).
    cbv iota. rewrite (i64_ok Release (base + 1 - 1)) by (clear; unfold base; lia). mret. rewrite i64_ok by (clear - H1; unfold base in *; lia). mret.
    replace (base + 1 - 1) with base by lia. replace (d1 - d0 + d0) with d1 by lia. exact LF.
Qed.

(** The last step. *)
Lemma last_base b2 rnz d0 d1 p Bn buf r W q r0 : uok b2 -> zlen b2 = rnz + 1 -> 1 <= rnz <= 8 -> sg b2 0 (rnz + 1) = Bn -> 
  base <= 2 * d0 -> d0 < base -> 0 <= d1 < base -> 0 <= p ->
  let i := p + rnz in let D := dshift Bn 0 p 0 in uok buf -> i + 1 < 18 -> zlen buf = 18 -> zlen r = 9 -> W = sg buf 0 (i + 2) -> W = q * D + r0 -> 0 <= r0 < D -> q = base - 1 ->
  0 < D < base ^ (i + 1) -> zn buf (i + 1) * base + zn buf i = d0 * base + d1 ->
  long_div Release 1 b2 rnz d0 d1 buf i r = Ret (upd 0 q r).
Proof.
  intros U2 L2 R1 EB H0 H0' H1 Hp i D U Li Lb Lr EV EW Hr Hq HD ER.
  cbn [long_div]. cbv zeta. rewrite (guess_base buf i d0 d1 U ltac:(unfold i; lia) ltac:(lia) ltac:(lia) H0 H0' H1 ER). mret.
  destruct (mul_sub_window_le Release b2 base buf i rnz ltac:(unfold base; lia) U U2 L2 ltac:(lia) ltac:(unfold i; lia) ltac:(lia)) as (buf' & cy & b & lo & E & Wr & Hc & Hb & HL & ES). cbv zeta in *.
  pose proof (wrote_zlen _ _ _ _ Wr) as L'. rewrite E. mret. clear E.
  replace (Z.max 0 (rnz - i)) with 0 in * by (unfold i; clear - Hp; lia). replace (Z.max 0 (i - rnz)) with (0 + p + 0) in ES by (unfold i; clear - Hp; lia). rewrite Z.pow_0_r in *.
  assert (lo = 0) as -> by (clear - HL; lia). rewrite EB, <- EV in ES. replace (0 + i + 1) with (i + 1) in ES by lia. rewrite <- Z.mul_assoc in ES. fold D in ES. change (Bn * base ^ (0 + p + 0)) with D in ES.
  assert (BV : 0 <= sg buf' 0 (i + 1) < base ^ (i + 1)) by (apply sg_bound; [apply Wr|unfold i; lia]).
  rewrite get_ok by (unfold i in *; lia). mret. assert (ET : zn buf' (i + 1) = zn buf (i + 1)) by (apply Wr; unfold i; lia). rewrite ET.
  pose proof (uok_zn buf (i + 1) U) as B2. rewrite as_i32_id by (clear - Hc; unfold base in *; lia). rewrite i32_ok by (clear - B2 Hc; unfold base in *; lia). mret.
  assert (T : b + (zn buf (i + 1) - cy) = -1).
  { set (t := b + (zn buf (i + 1) - cy)) in *. clearbody t. rewrite EW, Hq in ES. clear - ES BV Hr HD. set (S := base ^ (i + 1)) in *. set (V := sg buf' 0 (i + 1)) in *. clearbody S V D.
    assert (S * t + V = r0 - D) by lia. assert (S * t < 0) by lia. assert (- S < S * (t + 1)) by lia. nia. }
  rewrite T. rewrite i32_ok by lia. mret. change (-1 =? -1) with true. cbv iota. rewrite i64_ok by (unfold base; lia). mret.
  destruct (negate_any Release (Z.to_nat rnz) buf' 0 0 ltac:(apply Wr) ltac:(lia) ltac:(lia) ltac:(lia)) as (buf3 & b3 & EN' & _). change (Z.of_nat 0) with 0. rewrite EN'. mret. mret.
  rewrite <- Hq, as_i32_id by (rewrite Hq; unfold base; lia). rewrite set_ok by lia. mret. reflexivity.
Qed.
