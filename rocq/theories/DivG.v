(** * Long division by any divisor: the quotient units come out right if no
    unit of the quotient is close to 10^9 (and, where the loop drops units of
    the divisor, none but the leading ones is close to 0). *)
From Coq Require Import ZArith List Bool Lia QArith.
From Coq Require Import ZifyBool ZifyNat.
From Verif Require Import Rust Tables Model_Base Model_Cmp Model_Arith Spec Lib Cmp AddSub Sign Mul DivBasics Div Div2.
Import ListNotations.
Open Scope Z_scope.
Ltac Zify.zify_post_hook ::= Z.div_mod_to_equations.

Lemma mul_sub_gen m q : 0 <= q < base -> forall b2 buf ms c b, uok buf -> uok b2 -> ms + zlen b2 <= zlen buf -> 0 <= c < base -> -1 <= b <= 0 ->
  exists buf' c' b' lo, mul_sub m b2 q buf ms c b = Ret (buf', c', b') /\ wrote buf buf' (Z.max 0 ms) (Z.max 0 (ms + zlen b2) - Z.max 0 ms) /\
    0 <= c' < base /\ -1 <= b' <= 0 /\ let d := Z.min (zlen b2) (Z.max 0 (- ms)) in 0 <= lo < base ^ d /\
    lo + base ^ d * sg buf' (Z.max 0 ms) (zlen b2 - d) =
      base ^ d * sg buf (Z.max 0 ms) (zlen b2 - d) - q * sg b2 0 (zlen b2) - c + b + base ^ zlen b2 * (c' - b').
Proof.
  intros Hq. induction b2 as [|x b2 IH]; intros buf ms c b U U2 L Hc Hb.
  - exists buf, c, b, 0. change (zlen []) with 0. cbv zeta. replace (Z.min 0 (Z.max 0 (- ms))) with 0 by lia. rewrite Z.pow_0_r. rewrite !sg_nil by lia.
    split; [reflexivity|]. split; [apply wrote_refl, U|]. lia.
  - apply uok_cons in U2. destruct U2 as [Hx U2]. rewrite zlen_cons in *. pose proof (zlen_nonneg b2) as NN.
    rewrite mul_sub_one by (try assumption; clear - L NN; lia).
    pose proof (step_bounds q x 0 c Hq Hx ltac:(unfold base; lia) Hc) as B. rewrite Z.add_0_r in B.
    assert (Dv : exists v, v = q * x + c) by eauto. destruct Dv as (v & Dv). rewrite <- Dv in *.
    pose proof (Z.div_mod v base ltac:(unfold base; lia)) as Dm. pose proof (Z.mod_pos_bound v base ltac:(reflexivity)) as Hm.
    assert (Hc1 : 0 <= v / base < base) by (clear - B; unfold base in *; lia).
    set (c1 := v / base) in *. set (v0 := v mod base) in *. clearbody c1 v0.
    destruct (sub_with_borrow_ok m (dg buf ms) v0 b (dg_bound _ _ U) Hm Hb) as (s & b1 & E & Hs & Hb1 & Es). rewrite E. mret.
    assert (W1 : wrote buf (if ms <? 0 then buf else upd (Z.to_nat ms) s buf) (Z.max 0 ms) (Z.max 0 (ms + 1) - Z.max 0 ms)).
    { destruct (Z.ltb_spec ms 0) as [N|N]; [apply wrote_refl, U|]. replace (Z.max 0 ms) with ms by lia. replace (Z.max 0 (ms + 1) - ms) with 1 by lia. apply wrote_upd; [exact U|lia|exact Hs]. }
    set (buf1 := if ms <? 0 then buf else upd (Z.to_nat ms) s buf) in *. pose proof (wrote_zlen _ _ _ _ W1) as L1.
    destruct (IH buf1 (ms + 1) c1 b1) as (buf' & c' & b' & lo & E' & W' & Hc' & Hb' & HL & ES); [apply W1|exact U2|lia|exact Hc1|exact Hb1|].
    clear IH. cbv zeta in ES, HL. rewrite E'.
    destruct (Z.ltb_spec ms 0) as [N|N].
    + exists buf', c', b', (s + base * lo). split; [reflexivity|]. split; [|split; [exact Hc'|split; [exact Hb'|]]].
      { eapply wrote_trans; [exact W1|exact W'|lia..]. }
      cbv zeta. set (d := Z.min (zlen b2) (Z.max 0 (- (ms + 1)))) in *. replace (Z.min (1 + zlen b2) (Z.max 0 (- ms))) with (d + 1) by lia.
      assert (D0 : 0 <= d) by lia. rewrite base_S by exact D0. replace (1 + zlen b2 - (d + 1)) with (zlen b2 - d) by lia.
      replace (Z.max 0 ms) with 0 by lia. replace (Z.max 0 (ms + 1)) with 0 in ES by lia.
      split; [clear - Hs HL; unfold base in *; lia|]. rewrite sg_cons_list by exact NN. replace (1 + zlen b2) with (zlen b2 + 1) by lia. rewrite base_S by exact NN.
      unfold dg in Es. replace (ms <? 0) with true in Es by lia. unfold buf1 in ES.
      clear - ES Es Dv Dm. set (P := base ^ d) in *. set (Q := base ^ zlen b2) in *. set (t := sg b2 0 (zlen b2)) in *. set (s' := sg buf' 0 (zlen b2 - d)) in *. set (s0 := sg buf 0 (zlen b2 - d)) in *.
      clearbody P Q t s' s0. replace (s + base * lo + base * P * s') with (s + base * (lo + P * s')) by ring. rewrite ES.
      replace s with (0 - v0 + b - base * b1) by (clear - Es; lia). replace v0 with (q * x + c - base * c1) by (clear - Dv Dm; lia). ring.
    + exists buf', c', b', 0. split; [reflexivity|]. split; [|split; [exact Hc'|split; [exact Hb'|]]].
      { eapply wrote_trans; [exact W1|exact W'|lia..]. }
      cbv zeta. replace (Z.min (1 + zlen b2) (Z.max 0 (- ms))) with 0 by lia. replace (Z.min (zlen b2) (Z.max 0 (- (ms + 1)))) with 0 in * by lia.
      rewrite Z.pow_0_r in *. assert (lo = 0) as -> by (clear - HL; lia). split; [clear; lia|]. rewrite !Z.sub_0_r in *. replace (Z.max 0 ms) with ms in * by lia. replace (Z.max 0 (ms + 1)) with (ms + 1) in * by lia.
      rewrite !sg_cons by exact NN. fold (sg b2 0 (zlen b2)). rewrite <- (sg_cons (x :: b2) 0 (zlen b2)) by exact NN. rewrite sg_cons_list by exact NN. replace (1 + zlen b2) with (zlen b2 + 1) by lia. rewrite base_S by exact NN.
      assert (Z1 : zn buf' ms = s). { destruct W' as (_ & _ & F). rewrite F by lia. unfold buf1. apply zn_upd_eq. lia. }
      assert (Z2 : sg buf1 (ms + 1) (zlen b2) = sg buf (ms + 1) (zlen b2)) by (unfold buf1; apply sg_upd_out; lia).
      rewrite Z2 in ES. rewrite Z1. unfold dg in Es. replace (ms <? 0) with false in Es by lia.
      clear - ES Es Dv Dm. set (Q := base ^ zlen b2) in *. set (t := sg b2 0 (zlen b2)) in *. set (s' := sg buf' (ms + 1) (zlen b2)) in *. set (s0 := sg buf (ms + 1) (zlen b2)) in *.
      clearbody Q t s' s0. replace s' with (1 * s0 - q * t - c1 + b1 + Q * (c' - b')) by (clear - ES; lia).
      replace s with (zn buf ms - v0 + b - base * b1) by (clear - Es; lia). replace v0 with (q * x + c - base * c1) by (clear - Dv Dm; lia). ring.
Qed.

(** The same for a whole window: units [0..i], and unit [i+1] on top. *)
Lemma mul_sub_window m b2 q buf i rnz : 0 <= q < base -> uok buf -> uok b2 -> zlen b2 = rnz + 1 -> 0 <= rnz -> 0 <= i -> i + 1 < zlen buf ->
  exists buf' c b lo, let d := Z.max 0 (rnz - i) in mul_sub m b2 q buf (i - rnz) 0 0 = Ret (buf', c, b) /\ wrote buf buf' 0 (i + 1) /\
    0 <= c < base /\ -1 <= b <= 0 /\ 0 <= lo < base ^ d /\
    lo + base ^ d * sg buf' 0 (i + 1) =
      base ^ d * sg buf 0 (i + 2) - q * sg b2 0 (rnz + 1) * base ^ Z.max 0 (i - rnz) - base ^ (d + i + 1) * (b + (zn buf (i + 1) - c)).
Proof.
  intros Hq U U2 L2 Hr Hi Li. destruct (mul_sub_gen m q Hq b2 buf (i - rnz) 0 0 U U2 ltac:(lia) ltac:(unfold base; lia) ltac:(lia)) as (buf' & c & b & lo & E & W & Hc & Hb & HL & ES).
  exists buf', c, b, lo. cbv zeta in *. rewrite L2 in *. split; [exact E|]. split; [eapply wrote_trans; [apply (wrote_refl _ 0 0 U)|exact W|lia..]|]. split; [exact Hc|]. split; [exact Hb|].
  replace (i + 2) with (i + 1 + 1) by lia. rewrite (sg_snoc buf 0 (i + 1)) by lia. replace (0 + (i + 1)) with (i + 1) by lia. set (x := zn buf (i + 1)). clearbody x.
  destruct (Z.le_gt_cases 0 (i - rnz)) as [N|N].
  - replace (Z.max 0 (rnz - i)) with 0 by lia. replace (Z.min (rnz + 1) (Z.max 0 (- (i - rnz)))) with 0 in * by lia. replace (Z.max 0 (i - rnz)) with (i - rnz) in * by lia.
    split; [exact HL|]. rewrite Z.pow_0_r in *. rewrite !Z.sub_0_r in ES. assert (lo = 0) as -> by (clear - HL; lia).
    assert (X : forall l, sg l 0 (i + 1) = sg l 0 (i - rnz) + base ^ (i - rnz) * sg l (i - rnz) (rnz + 1)).
    { intros l. replace (i + 1) with (i - rnz + (rnz + 1)) by lia. apply sg_app; lia. }
    rewrite !X. rewrite (wrote_sg _ _ _ _ 0 (i - rnz) W) by lia.
    assert (EP : base ^ (i + 1) = base ^ (i - rnz) * base ^ (rnz + 1)) by (rewrite <- base_pow_split by lia; f_equal; lia).
    replace (0 + i + 1) with (i + 1) by lia. rewrite EP. clear - ES.
    set (P := base ^ (i - rnz)) in *. set (Q := base ^ (rnz + 1)) in *. set (t := sg b2 0 (rnz + 1)) in *. set (s' := sg buf' (i - rnz) (rnz + 1)) in *. set (s0 := sg buf (i - rnz) (rnz + 1)) in *. set (w := sg buf 0 (i - rnz)) in *.
    clearbody P Q t s' s0 w. replace s' with (1 * s0 - q * t - 0 + 0 + Q * (c - b)) by lia. ring.
  - replace (Z.max 0 (rnz - i)) with (rnz - i) by lia. replace (Z.min (rnz + 1) (Z.max 0 (- (i - rnz)))) with (rnz - i) in * by lia. replace (Z.max 0 (i - rnz)) with 0 in * by lia.
    split; [exact HL|]. rewrite Z.pow_0_r. replace (rnz + 1 - (rnz - i)) with (i + 1) in ES by lia. rewrite ES.
    assert (EP : base ^ (rnz + 1) = base ^ (rnz - i) * base ^ (i + 1)) by (rewrite <- base_pow_split by lia; f_equal; lia).
    replace (rnz - i + i + 1) with (rnz + 1) by lia. rewrite EP. ring.
Qed.

(** The guess. *)
Lemma guess_exact D2 P D W V R3 q r c Bz : 0 < P -> base * base <= 4 * D2 -> D2 * P <= D < (D2 + 1) * P -> R3 * P <= V < (R3 + 1) * P ->
  0 <= W - V <= c * Bz -> 0 <= Bz <= base * P -> 0 <= c <= 8 -> W = q * D + r -> 0 <= r < D -> 0 <= q <= base - 1 -> 10 * D <= base * (D - r) ->
  c = 0 \/ 36 * D <= base * r -> q * D2 <= R3 < (q + 1) * D2 /\ 0 <= V - q * D <= r.
Proof.
  intros HP HD2 HD HR HW HBz Hc EW Hr Hq Hup Hlo.
  assert (BP : base * base * P <= 4 * D).
  { apply Z.le_trans with (4 * (D2 * P)); [|clear - HD; lia]. replace (4 * (D2 * P)) with (4 * D2 * P) by ring. apply Z.mul_le_mono_nonneg_r; [clear - HP; lia|exact HD2]. }
  assert (LR : c * Bz <= r \/ c = 0).
  { destruct Hlo as [?|Hlo]; [auto|left]. assert (c * Bz <= 8 * (base * P)) by (apply Z.mul_le_mono_nonneg; lia).
    clear - H BP Hlo HP. unfold base in *. lia. }
  assert (VQ : 0 <= V - q * D <= r).
  { assert (W - V <= r) by (destruct LR as [LR|LR]; [clear - HW LR; lia|rewrite LR in HW; clear - HW Hr; lia]). set (Y := q * D) in *. clearbody Y. clear - EW HW H. lia. }
  split; [|exact VQ]. split.
  - assert (X : q * D2 * P < (R3 + 1) * P). { apply Z.le_lt_trans with (q * D); [|clear - VQ HR; lia]. replace (q * D2 * P) with (q * (D2 * P)) by ring. apply Z.mul_le_mono_nonneg_l; [clear - Hq; lia|apply HD]. }
    apply Z.mul_lt_mono_pos_r in X; [clear - X; lia|exact HP].
  - apply (Z.mul_lt_mono_pos_r P); [exact HP|]. apply Z.le_lt_trans with V; [apply HR|]. apply Z.le_lt_trans with (q * D + r); [clear - EW HW; lia|].
    assert (X : (q + 1) * D < (q + 1) * ((D2 + 1) * P)) by (apply Z.mul_lt_mono_pos_l; [clear - Hq; lia|apply HD]).
    assert (Y : (q + 1) * P <= base * P) by (apply Z.mul_le_mono_nonneg_r; [clear - HP; lia|clear - Hq; lia]).
    replace ((q + 1) * ((D2 + 1) * P)) with ((q + 1) * D2 * P + (q + 1) * P) in X by ring. replace ((q + 1) * D) with (q * D + D) in X by ring.
    assert (Z0 : base * P <= D - r) by (clear - BP Hup HP; unfold base in *; lia). clear - X Y Z0. lia.
Qed.
(** Without the upper condition the guess is right or one too large. *)
Lemma guess_near D2 P D W V R3 q r c Bz : 0 < P -> base * base <= 4 * D2 -> D2 * P <= D < (D2 + 1) * P -> R3 * P <= V < (R3 + 1) * P ->
  0 <= W - V <= c * Bz -> 0 <= Bz <= base * P -> 0 <= c <= 8 -> W = q * D + r -> 0 <= r < D -> 0 <= q <= base - 1 ->
  c = 0 \/ 36 * D <= base * r -> q * D2 <= R3 < (q + 2) * D2 /\ 0 <= V - q * D <= r.
Proof.
  intros HP HD2 HD HR HW HBz Hc EW Hr Hq Hlo.
  assert (BP : base * base * P <= 4 * D).
  { apply Z.le_trans with (4 * (D2 * P)); [|clear - HD; lia]. replace (4 * (D2 * P)) with (4 * D2 * P) by ring. apply Z.mul_le_mono_nonneg_r; [clear - HP; lia|exact HD2]. }
  assert (LR : c * Bz <= r \/ c = 0).
  { destruct Hlo as [?|Hlo]; [auto|left]. assert (c * Bz <= 8 * (base * P)) by (apply Z.mul_le_mono_nonneg; lia).
    clear - H BP Hlo HP. unfold base in *. lia. }
  assert (VQ : 0 <= V - q * D <= r).
  { assert (W - V <= r) by (destruct LR as [LR|LR]; [clear - HW LR; lia|rewrite LR in HW; clear - HW Hr; lia]). set (Y := q * D) in *. clearbody Y. clear - EW HW H. lia. }
  split; [|exact VQ]. split.
  - assert (X : q * D2 * P < (R3 + 1) * P). { apply Z.le_lt_trans with (q * D); [|clear - VQ HR; lia]. replace (q * D2 * P) with (q * (D2 * P)) by ring. apply Z.mul_le_mono_nonneg_l; [clear - Hq; lia|apply HD]. }
    apply Z.mul_lt_mono_pos_r in X; [clear - X; lia|exact HP].
  - apply (Z.mul_lt_mono_pos_r P); [exact HP|]. apply Z.le_lt_trans with V; [apply HR|]. apply Z.le_lt_trans with (q * D + r); [clear - EW HW; lia|].
    assert (X : (q + 1) * D < (q + 1) * ((D2 + 1) * P)) by (apply Z.mul_lt_mono_pos_l; [clear - Hq; lia|apply HD]).
    assert (Y : (q + 1) * P <= D2 * P) by (apply Z.mul_le_mono_nonneg_r; [clear - HP; lia|clear - Hq HD2; unfold base in *; lia]).
    replace ((q + 1) * ((D2 + 1) * P)) with ((q + 1) * D2 * P + (q + 1) * P) in X by ring. replace ((q + 1) * D) with (q * D + D) in X by ring.
    replace ((q + 2) * D2 * P) with ((q + 1) * D2 * P + D2 * P) by ring. clear - X Y Hr. lia.
Qed.
Lemma guess_debug d0 d1 P D W V R : 0 < P -> base <= 4 * d0 -> 0 <= d1 < base -> D < (d0 * base + d1 + 1) * P -> R * base * P <= V -> V <= W ->
  10 * (D * base) <= base * (D * base - W) -> R < d0 * base.
Proof.
  intros HP H0 H1 HD HR HV HW. assert (X : W <= D * (base - 10)) by (clear - HW; unfold base in *; lia).
  assert (Y : R * base * P < (d0 * base + d1 + 1) * (base - 10) * P).
  { apply Z.le_lt_trans with (D * (base - 10)); [clear - X HV HR; lia|]. replace ((d0 * base + d1 + 1) * (base - 10) * P) with ((d0 * base + d1 + 1) * P * (base - 10)) by ring.
    apply Z.mul_lt_mono_pos_r; [reflexivity|exact HD]. }
  apply Z.mul_lt_mono_pos_r in Y; [|exact HP]. clear - Y H0 H1. unfold base in *. lia.
Qed.

Lemma tops3 l i : uok l -> 0 <= i -> tops l (i + 1) 3 = (zn l (i + 1) * base + zn l i) * base + dg l (i - 1).
Proof.
  intros U Hi. cbn [tops]. replace (i + 1 - 1) with i by lia. unfold dg. replace (i + 1 <? 0) with false by lia. replace (i <? 0) with false by lia.
  change (base ^ Z.of_nat 2) with (base * base). change (base ^ Z.of_nat 1) with base. change (base ^ Z.of_nat 0) with 1. ring.
Qed.
(** The three leading units of the window, and the window. *)
Lemma window3 l i z : uok l -> 0 <= i -> 0 <= z -> 1 <= z + i -> let R3 := tops l (i + 1) 3 in
  R3 * base ^ (z + i - 1) <= sg l 0 (i + 2) * base ^ z < (R3 + 1) * base ^ (z + i - 1).
Proof.
  intros U Hi Hz Hzi R3. destruct (Z.le_gt_cases 1 i) as [I|I].
  - assert (E : sg l 0 (i + 2) = sg l 0 (i - 1) + base ^ (i - 1) * R3).
    { unfold R3. rewrite tops_sg by lia. change (Z.of_nat 3) with 3. replace (i + 1 + 1 - 3) with (i - 1) by lia. replace (i + 2) with (i - 1 + 3) by lia. rewrite sg_app by lia. reflexivity. }
    rewrite E. replace (z + i - 1) with (z + (i - 1)) by lia. rewrite base_pow_split by lia. pose proof (sg_bound l 0 (i - 1) U ltac:(lia)) as B. pose proof (pow_base_pos z Hz) as Pz.
    set (S := sg l 0 (i - 1)) in *. set (Q := base ^ (i - 1)) in *. set (Z0 := base ^ z) in *. clearbody S Q Z0 R3. clear - B Pz. split.
    + replace (R3 * (Z0 * Q)) with (Q * R3 * Z0) by ring. apply Z.mul_le_mono_nonneg_r; lia.
    + replace ((R3 + 1) * (Z0 * Q)) with ((Q * R3 + Q) * Z0) by ring. apply Z.mul_lt_mono_pos_r; lia.
  - assert (i = 0) as -> by lia. assert (E : R3 = sg l 0 2 * base).
    { unfold R3. rewrite tops3 by (assumption || lia). change (dg l (0 - 1)) with 0. change (0 + 1) with 1. assert (X : sg l 0 (1 + 1) = zn l 0 + base * zn l 1) by (rewrite sg_cons by lia; rewrite sg_1; reflexivity). change (1 + 1) with 2 in X. rewrite X. ring. }
    rewrite E. replace (z + 0 - 1) with (z - 1) by lia. change (0 + 2) with 2.
    assert (EP : base ^ z = base * base ^ (z - 1)) by (rewrite <- base_S by lia; f_equal; lia). rewrite EP. pose proof (pow_base_pos (z - 1) ltac:(lia)).
    split; [apply Z.eq_le_incl; ring|]. replace (sg l 0 2 * (base * base ^ (z - 1))) with (sg l 0 2 * base * base ^ (z - 1)) by ring. apply Z.mul_lt_mono_pos_r; lia.
Qed.

(** The divisor, shifted to the unit [j] of the quotient; [z] is large enough
    to make it an integer. *)
Definition dshift (Bn z p j : Z) : Z := Bn * base ^ (z + p + j).

Section long.
  Variables (m : build) (b2 : list Z) (rnz d0 d1 z p Bn : Z).
  Hypothesis U2 : uok b2.
  Hypothesis L2 : zlen b2 = rnz + 1.
  Hypothesis R1 : 1 <= rnz.
  Hypothesis EB : sg b2 0 (rnz + 1) = Bn.
  Hypothesis E0 : zn b2 rnz = d0.
  Hypothesis E1 : zn b2 (rnz - 1) = d1.
  Hypothesis H0 : base <= 4 * d0.
  Hypothesis Hz : 0 <= z.
  Hypothesis Hzp : 0 <= z + p.
  Hypothesis Hp : 0 <= p + rnz.
  Let D2 := d0 * base + d1.
  Let D (j : Z) := dshift Bn z p j.

  Lemma Bn_top : exists lo, Bn = D2 * base ^ (rnz - 1) + lo /\ 0 <= lo < base ^ (rnz - 1).
  Proof.
    exists (sg b2 0 (rnz - 1)). split; [|apply sg_bound; [exact U2|lia]]. rewrite <- EB. replace (rnz + 1) with (rnz - 1 + (1 + 1)) by lia.
    rewrite sg_app, sg_cons, sg_1 by lia. replace (0 + (rnz - 1)) with (rnz - 1) by lia. replace (rnz - 1 + 1) with rnz by lia. rewrite E0, E1. unfold D2. ring.
  Qed.
  Lemma d0_bound : 0 < d0 < base. Proof. pose proof (uok_zn b2 rnz U2) as B. rewrite E0 in B. unfold base in *. lia. Qed.
  Lemma d1_bound : 0 <= d1 < base. Proof. pose proof (uok_zn b2 (rnz - 1) U2) as B. rewrite E1 in B. exact B. Qed.
  Lemma D2_bound : base * base <= 4 * D2 /\ D2 < base * base.
  Proof. pose proof d0_bound as A. pose proof d1_bound as B. unfold D2. clear - A B H0. unfold base in *. lia. Qed.
  Lemma Bn_pos : 0 < Bn.
  Proof. destruct Bn_top as (lo & E & B). pose proof D2_bound as [X _]. rewrite E. pose proof (pow_base_pos (rnz - 1) ltac:(lia)) as P. clear - X P B. unfold base in X. nia. Qed.
  Lemma D_pos j : 0 <= j -> 0 < D j. Proof. intros J. unfold D, dshift. apply Z.mul_pos_pos; [exact Bn_pos|apply pow_base_pos; lia]. Qed.
  Lemma D_succ j : 0 <= j -> D (j + 1) = D j * base.
  Proof. intros J. unfold D, dshift. replace (z + p + (j + 1)) with (z + p + j + 1) by lia. rewrite base_S by lia. ring. Qed.
  Lemma D_top j : 0 <= j -> let i := p + rnz + j in D2 * base ^ (z + i - 1) <= D j < (D2 + 1) * base ^ (z + i - 1).
  Proof.
    intros J i. destruct Bn_top as (lo & E & B). unfold D, dshift. rewrite E. replace (z + i - 1) with (rnz - 1 + (z + p + j)) by lia. rewrite base_pow_split by lia.
    pose proof (pow_base_pos (z + p + j) ltac:(lia)) as P. set (Q := base ^ (z + p + j)) in *. set (S := base ^ (rnz - 1)) in *. clearbody Q S. clear - B P. split.
    - replace (D2 * (S * Q)) with (D2 * S * Q) by ring. apply Z.mul_le_mono_nonneg_r; lia.
    - replace ((D2 + 1) * (S * Q)) with ((D2 * S + S) * Q) by ring. apply Z.mul_lt_mono_pos_r; lia.
  Qed.
  Lemma D_lt j : 0 <= j -> D j < base ^ (z + (p + rnz + j) + 1).
  Proof.
    intros J. pose proof (D_top j J) as [_ T]. cbv zeta in T. pose proof D2_bound as [_ X]. eapply Z.lt_le_trans; [exact T|].
    replace (z + (p + rnz + j) + 1) with (2 + (z + (p + rnz + j) - 1)) by lia. rewrite base_pow_split by lia. apply Z.mul_le_mono_nonneg_r; [apply Z.lt_le_incl, pow_base_pos; lia|]. change (base ^ 2) with (base * base). lia.
  Qed.
  Lemma D_mod j k W : 0 <= j <= k -> W mod D k mod D j = W mod D j.
  Proof.
    intros J. pose proof (D_pos j ltac:(lia)) as P. assert (E : D k = D j * base ^ (k - j)). { unfold D, dshift. rewrite <- Z.mul_assoc, <- base_pow_split by lia. do 2 f_equal. lia. }
    pose proof (pow_base_pos (k - j) ltac:(lia)) as Q. rewrite E. rewrite Z.rem_mul_r by (clear - P Q; lia).
    rewrite (Z.mul_comm (D j)), Z.mod_add by (clear - P; lia). apply Z.mod_mod. clear - P; lia.
  Qed.

  (** One step: the window is shortened by one unit. *)
  Lemma long_step buf j V W q r c : let i := p + rnz + j in 0 <= j -> uok buf -> i + 1 < zlen buf -> V = sg buf 0 (i + 2) ->
    0 <= W - V * base ^ z <= c * base ^ z -> W = q * D j + r -> 0 <= r < D j -> 0 <= q < base -> 0 <= V * base ^ z - q * D j <= r ->
    exists buf' cy b, mul_sub m b2 q buf (i - rnz) 0 0 = Ret (buf', cy, b) /\ wrote buf buf' 0 (i + 1) /\
      0 <= cy < base /\ b + (zn buf (i + 1) - cy) = 0 /\ 0 <= r - sg buf' 0 (i + 1) * base ^ z <= (c + 1) * base ^ z /\
      (W = V * base ^ z -> (base ^ z | D j) -> r = sg buf' 0 (i + 1) * base ^ z).
  Proof.
    intros i J U Li EV HW EW Hr Hq HV. assert (Hi : 0 <= i) by lia.
    destruct (mul_sub_window m b2 q buf i rnz Hq U U2 L2 ltac:(lia) Hi Li) as (buf' & cy & b & lo & E & Wr & Hc & Hb & HL & ES). cbv zeta in *.
    exists buf', cy, b. split; [exact E|]. split; [exact Wr|]. split; [exact Hc|]. rewrite EB, <- EV in ES.
    set (d := Z.max 0 (rnz - i)) in *. assert (Hd : 0 <= d <= z) by (unfold d, i; clear - J Hz Hzp; lia).
    assert (Hd' : z - d + Z.max 0 (i - rnz) = z + p + j /\ z - d + d = z /\ z - d + (d + i + 1) = z + i + 1 /\ z - d + (d + (i + 1)) = z + i + 1) by (unfold d, i; clear - J Hz Hzp; lia). destruct Hd' as (Hd1 & Hd2 & Hd3 & Hd4).
    assert (Nzd : 0 <= z - d) by (clear - Hd; lia). assert (Ni : 0 <= Z.max 0 (i - rnz)) by (clear; lia). assert (Nd : 0 <= d) by (clear - Hd; lia). assert (Ni1 : 0 <= i + 1) by (clear - Hi; lia).
    set (t := b + (zn buf (i + 1) - cy)) in *. set (V' := sg buf' 0 (i + 1)) in *.
    assert (BV : 0 <= V' < base ^ (i + 1)) by (apply sg_bound; [apply Wr|lia]).
    assert (EZ : base ^ z = base ^ (z - d) * base ^ d) by (rewrite <- base_pow_split by assumption; f_equal; symmetry; exact Hd2).
    assert (ED : D j = Bn * base ^ Z.max 0 (i - rnz) * base ^ (z - d)).
    { unfold D, dshift. rewrite <- Hd1. rewrite base_pow_split by assumption. ring. }
    assert (EI : base ^ (z + i + 1) = base ^ (z - d) * (base ^ d * base ^ (i + 1))) by (rewrite <- Hd4; rewrite !base_pow_split by (assumption || (clear - Nd Ni1; lia)); reflexivity).
    assert (EI' : base ^ (d + i + 1) = base ^ d * base ^ (i + 1)) by (replace (d + i + 1) with (d + (i + 1)) by (clear; lia); apply base_pow_split; assumption).
    assert (EM : (lo + base ^ d * V') * base ^ (z - d) = V * base ^ z - q * D j - base ^ (z + i + 1) * t).
    { rewrite ES, ED, EZ, EI, EI'. ring. }
    pose proof (pow_base_pos (z - d) Nzd) as Pzd. pose proof (pow_base_pos z Hz) as Pz. pose proof (pow_base_pos d Nd) as Pd.
    assert (BL : 0 <= lo + base ^ d * V' < base ^ d * base ^ (i + 1)).
    { clear - HL BV Pd. set (Q := base ^ d) in *. set (S := base ^ (i + 1)) in *. clearbody Q S V'. nia. }
    assert (T0 : t = 0).
    { pose proof (D_lt j J) as DL. change (z + (p + rnz + j) + 1) with (z + i + 1) in DL.
      assert (X : 0 <= (lo + base ^ d * V') * base ^ (z - d) < base ^ (z + i + 1)).
      { rewrite EI. clear - BL Pzd. set (A := lo + base ^ d * V') in *. set (S := base ^ d * base ^ (i + 1)) in *. set (Q := base ^ (z - d)) in *. clearbody A S Q. split; [apply Z.mul_nonneg_nonneg; lia|].
        rewrite (Z.mul_comm Q). apply Z.mul_lt_mono_pos_r; lia. }
      rewrite EM in X. clear - X HV Hr DL. set (S := base ^ (z + i + 1)) in *. set (Y := V * base ^ z - q * D j) in *. clearbody S Y t. nia. }
    split; [exact T0|]. rewrite T0, Z.mul_0_r, Z.sub_0_r in EM.
    assert (EV' : V' * base ^ z = V * base ^ z - q * D j - lo * base ^ (z - d)) by (rewrite <- EM, EZ; ring).
    assert (BLo : 0 <= lo * base ^ (z - d) < base ^ z).
    { rewrite EZ. clear - HL Pzd. set (Q := base ^ (z - d)) in *. set (S := base ^ d) in *. clearbody Q S. split; [apply Z.mul_nonneg_nonneg; lia|]. rewrite (Z.mul_comm Q). apply Z.mul_lt_mono_pos_r; lia. }
    split.
    - rewrite EV'. clear - HW EW BLo. set (Q := base ^ z) in *. set (S := lo * base ^ (z - d)) in *. set (Y := q * D j) in *. clearbody Q S Y. lia.
    - intros EX (k & EK). rewrite EV'. assert (ZL : lo * base ^ (z - d) = 0).
      { assert (F : lo * base ^ (z - d) = base ^ z * (V - q * k - V')) by (rewrite EK in EV'; clear - EV'; lia).
        rewrite F in BLo |- *. clear - BLo Pz. set (Q := base ^ z) in *. set (Y := V - q * k - V') in *. clearbody Q Y. assert (Y = 0) by nia. subst Y. lia. }
      rewrite ZL, <- EX, EW. clear. lia.
  Qed.

  (** A guess one too large: the subtraction borrows, and the unit is corrected. *)
  Lemma over_step buf j V W q r c : let i := p + rnz + j in 0 <= j -> j + rnz <= zlen buf -> uok buf -> i + 1 < zlen buf -> V = sg buf 0 (i + 2) ->
    0 <= W - V * base ^ z <= c * base ^ z -> W = q * D j + r -> 0 <= r < D j -> 0 <= q -> q + 1 < base -> 0 <= V * base ^ z - q * D j <= r ->
    exists buf' cy b buf'' b', mul_sub m b2 (q + 1) buf (i - rnz) 0 0 = Ret (buf', cy, b) /\ wrote buf buf' 0 (i + 1) /\
      0 <= cy < base /\ b + (zn buf (i + 1) - cy) = -1 /\ negate_units m (Z.to_nat rnz) buf' j 0 = Ret (buf'', b').
  Proof.
    intros i J Jl U Li EV HW EW Hr Hq0 Hq1 HV. assert (Hi : 0 <= i) by lia.
    destruct (mul_sub_window m b2 (q + 1) buf i rnz ltac:(lia) U U2 L2 ltac:(lia) Hi Li) as (buf' & cy & b & lo & E & Wr & Hc & Hb & HL & ES). cbv zeta in *.
    pose proof (wrote_zlen _ _ _ _ Wr) as L'. 
    destruct (negate_units_ok m (Z.to_nat rnz) buf' j 0) as (buf'' & b' & EN & _); [first [apply Wr|lia]..|].
    exists buf', cy, b, buf'', b'. split; [exact E|]. split; [exact Wr|]. split; [exact Hc|]. split; [|exact EN]. clear EN buf'' b' Jl. rewrite EB, <- EV in ES.
    set (d := Z.max 0 (rnz - i)) in *. assert (Hd : 0 <= d <= z) by (unfold d, i; clear - J Hz Hzp; lia).
    assert (Hd' : z - d + Z.max 0 (i - rnz) = z + p + j /\ z - d + d = z /\ z - d + (d + i + 1) = z + i + 1 /\ z - d + (d + (i + 1)) = z + i + 1) by (unfold d, i; clear - J Hz Hzp; lia). destruct Hd' as (Hd1 & Hd2 & Hd3 & Hd4).
    assert (Nzd : 0 <= z - d) by (clear - Hd; lia). assert (Ni : 0 <= Z.max 0 (i - rnz)) by (clear; lia). assert (Nd : 0 <= d) by (clear - Hd; lia). assert (Ni1 : 0 <= i + 1) by (clear - Hi; lia).
    set (t := b + (zn buf (i + 1) - cy)) in *. set (V' := sg buf' 0 (i + 1)) in *.
    assert (BV : 0 <= V' < base ^ (i + 1)) by (apply sg_bound; [apply Wr|lia]).
    assert (EZ : base ^ z = base ^ (z - d) * base ^ d) by (rewrite <- base_pow_split by assumption; f_equal; symmetry; exact Hd2).
    assert (ED : D j = Bn * base ^ Z.max 0 (i - rnz) * base ^ (z - d)).
    { unfold D, dshift. rewrite <- Hd1. rewrite base_pow_split by assumption. ring. }
    assert (EI : base ^ (z + i + 1) = base ^ (z - d) * (base ^ d * base ^ (i + 1))) by (rewrite <- Hd4; rewrite !base_pow_split by (assumption || (clear - Nd Ni1; lia)); reflexivity).
    assert (EI' : base ^ (d + i + 1) = base ^ d * base ^ (i + 1)) by (replace (d + i + 1) with (d + (i + 1)) by (clear; lia); apply base_pow_split; assumption).
    assert (EM : (lo + base ^ d * V') * base ^ (z - d) = V * base ^ z - q * D j - D j - base ^ (z + i + 1) * t).
    { rewrite ES, ED, EZ, EI, EI'. ring. }
    pose proof (pow_base_pos (z - d) Nzd) as Pzd. pose proof (pow_base_pos d Nd) as Pd.
    assert (BL : 0 <= lo + base ^ d * V' < base ^ d * base ^ (i + 1)).
    { clear - HL BV Pd. set (Q := base ^ d) in *. set (S := base ^ (i + 1)) in *. clearbody Q S V'. nia. }
    pose proof (D_lt j J) as DL. change (z + (p + rnz + j) + 1) with (z + i + 1) in DL.
    assert (X : 0 <= (lo + base ^ d * V') * base ^ (z - d) < base ^ (z + i + 1)).
    { rewrite EI. clear - BL Pzd. set (A := lo + base ^ d * V') in *. set (S := base ^ d * base ^ (i + 1)) in *. set (Q := base ^ (z - d)) in *. clearbody A S Q. split; [apply Z.mul_nonneg_nonneg; lia|].
      rewrite (Z.mul_comm Q). apply Z.mul_lt_mono_pos_r; lia. }
    rewrite EM in X. clear - X HV Hr DL. set (S := base ^ (z + i + 1)) in *. set (Y := V * base ^ z - q * D j) in *. clearbody S Y t. nia.
  Qed.

  (** The last unit: whether the guess is right or one too large. *)
  Lemma long_last buf r V W c : let i := p + rnz in uok buf -> uok r -> i + 1 < zlen buf -> rnz <= zlen buf -> zlen buf <= 100 -> 1 <= zlen r -> V = sg buf 0 (i + 2) ->
    0 <= W < D 1 -> 0 <= W - V * base ^ z <= c * base ^ z -> 0 <= c <= 8 -> c = 0 \/ 36 * D 0 <= base * (W mod D 0) -> 10 * D 1 <= base * (D 1 - W) ->
    exists r', long_div m 1 b2 rnz d0 d1 buf i r = Ret r' /\ wrote r r' 0 1 /\ sg r' 0 1 = W / D 0.
  Proof.
    intros i U Ur Li Lrn Lb Lr EV HW HV C8 HLj HD1. pose proof (D_pos 0 ltac:(clear; lia)) as PD. pose proof (D_succ 0 ltac:(clear; lia)) as ES. change (0 + 1) with 1 in ES. rewrite ES in HW, HD1.
    assert (Hi : 0 <= i) by (unfold i; clear - Hp; lia). assert (Hzi : 1 <= z + i) by (unfold i; clear - Hzp R1; lia).
    pose proof (Z.div_mod W (D 0) ltac:(clear - PD; lia)) as DM. pose proof (Z.mod_pos_bound W (D 0) PD) as BM.
    assert (Bq : 0 <= W / D 0 <= base - 10).
    { split; [apply Z.div_pos; [apply HW|exact PD]|]. assert (W / D 0 < base - 9); [|clear - H; lia]. apply Z.div_lt_upper_bound; [exact PD|]. clear - HD1 PD. unfold base in *. lia. }
    assert (EQ : exists q, q = W / D 0) by eauto. destruct EQ as (q & EQ). rewrite <- EQ in *.
    assert (ERr : exists r0, r0 = W mod D 0) by eauto. destruct ERr as (r0 & ERr). rewrite <- ERr in *.
    pose proof (window3 buf i z U Hi Hz Hzi) as W3. cbv zeta in W3. rewrite <- EV in W3. set (R3 := tops buf (i + 1) 3) in *.
    pose proof (D_top 0 ltac:(clear; lia)) as DT. cbv zeta in DT. replace (p + rnz + 0) with i in DT by (unfold i; clear; lia). set (P := base ^ (z + i - 1)) in *.
    assert (PP : 0 < P) by (apply pow_base_pos; clear - Hzi; lia).
    assert (BZ : 0 <= base ^ z <= base * P).
    { split; [apply Z.lt_le_incl, pow_base_pos, Hz|]. unfold P. rewrite <- base_S by (clear - Hzi; lia). apply Z.pow_le_mono_r; [reflexivity|clear - Hi; lia]. }
    destruct (guess_near D2 P (D 0) W (V * base ^ z) R3 q r0 c (base ^ z) PP (proj1 D2_bound) DT W3 HV BZ C8 ltac:(clear - DM; lia) BM ltac:(clear - Bq; lia) HLj) as ((G1 & G2) & VQ).
    pose proof d0_bound as Bd0. pose proof d1_bound as Bd1. pose proof D2_bound as [BD2 BD2'].
    assert (E3 : R3 = (zn buf (i + 1) * base + zn buf i) * base + dg buf (i - 1)) by (apply tops3; [exact U|exact Hi]).
    set (R := zn buf (i + 1) * base + zn buf i) in *. pose proof (dg_bound buf (i - 1) U) as Bx.
    assert (HR : R < D2).
    { assert (X : R * base < D2 * base); [|apply Z.mul_lt_mono_pos_r in X; [exact X|reflexivity]].
      apply Z.le_lt_trans with R3; [clear - E3 Bx; lia|]. apply Z.lt_le_trans with ((q + 2) * D2); [exact G2|]. rewrite (Z.mul_comm D2). apply Z.mul_le_mono_nonneg_r; [clear - BD2; unfold base in *; lia|clear - Bq; unfold base in *; lia]. }
    assert (HR' : R < d0 * base).
    { apply (guess_debug d0 d1 P (D 0) W (V * base ^ z) R PP H0 Bd1); [apply DT| |clear - HV; lia|exact HD1].
      eapply Z.le_trans; [|apply W3]. apply Z.mul_le_mono_nonneg_r; [clear - PP; lia|]. clear - E3 Bx. lia. }
    cbn [long_div]. cbv zeta. rewrite (guess_ok m d0 d1 H0 (proj2 Bd0) Bd1 buf i U Hi Li Lb HR (fun _ => HR')). mret. fold R. rewrite <- E3. fold D2.
    assert (DM' : W = q * D 0 + r0) by (clear - DM; lia). assert (Ei : i = p + rnz + 0) by (unfold i; clear; lia).
    assert (Wq : wrote r (upd 0 q r) 0 1). { apply (wrote_upd r 0 q Ur); [clear - Lr; lia|clear - Bq; unfold base in *; lia]. }
    assert (Sq : sg (upd 0 q r) 0 1 = q). { rewrite sg_1. apply (zn_upd_eq r 0 q). clear - Lr. lia. }
    pose proof (uok_zn buf (i + 1) U) as B2. change (Z.of_nat 0) with 0.
    destruct (Z.lt_ge_cases R3 ((q + 1) * D2)) as [G|G].
    - assert (EG : R3 / D2 = q). { symmetry. apply (Z.div_unique _ _ q (R3 - D2 * q)); [left; clear - G1 G; lia|clear; lia]. }
      rewrite EG.
      destruct (long_step buf 0 V W q r0 c ltac:(clear; lia) U) as (buf' & cy & b & E & Wr & Hcy & T & _); try assumption; [rewrite <- Ei; assumption|rewrite <- Ei; assumption|clear - Bq; unfold base in *; lia|].
      rewrite <- Ei in *. rewrite E. mret. clear E.
      pose proof (wrote_zlen _ _ _ _ Wr) as L'. rewrite get_ok by (clear - L' Li Hi; lia). mret.
      assert (ET : zn buf' (i + 1) = zn buf (i + 1)) by (apply Wr; clear - Hi; lia). rewrite ET.
      rewrite as_i32_id by (clear - Hcy; unfold base in *; lia).
      rewrite i32_ok by (clear - B2 Hcy; unfold base in *; lia). mret. rewrite T. rewrite i32_ok by (clear; lia). mret. change (0 =? -1) with false. cbv iota.
      rewrite set_ok by (clear - L' Li Hi; lia). mret. mret. rewrite as_i32_id by (clear - Bq; unfold base in *; lia). rewrite set_ok by (clear - Lr; lia). mret.
      exists (upd 0 q r). split; [reflexivity|]. split; assumption.
    - assert (EG : R3 / D2 = q + 1). { symmetry. apply (Z.div_unique _ _ (q + 1) (R3 - D2 * (q + 1))); [left; clear - G2 G; lia|clear; lia]. }
      rewrite EG.
      destruct (over_step buf 0 V W q r0 c ltac:(clear; lia) ltac:(clear - Lrn; lia) U) as (buf' & cy & b & buf'' & b' & E & Wr & Hcy & T & EN); try assumption; [rewrite <- Ei; assumption|rewrite <- Ei; assumption|clear - Bq; lia|clear - Bq; unfold base in *; lia|].
      rewrite <- Ei in *. rewrite E. mret. clear E.
      pose proof (wrote_zlen _ _ _ _ Wr) as L'. rewrite get_ok by (clear - L' Li Hi; lia). mret.
      assert (ET : zn buf' (i + 1) = zn buf (i + 1)) by (apply Wr; clear - Hi; lia). rewrite ET.
      rewrite as_i32_id by (clear - Hcy; unfold base in *; lia).
      rewrite i32_ok by (clear - B2 Hcy; unfold base in *; lia). mret. rewrite T. rewrite i32_ok by (clear; lia). mret. change (-1 =? -1) with true. cbv iota.
      rewrite i64_ok by (clear - Bq; unfold base in *; lia). mret. rewrite EN. mret. mret. replace (q + 1 - 1) with q by (clear; lia).
      rewrite as_i32_id by (clear - Bq; unfold base in *; lia). rewrite set_ok by (clear - Lr; lia). mret.
      exists (upd 0 q r). split; [reflexivity|]. split; assumption.
  Qed.

  Lemma D_div j : 1 <= j -> (base ^ z | D 1) -> (base ^ z | D j).
  Proof.
    intros J (k & E). exists (k * base ^ (j - 1)). unfold D, dshift in *. replace (z + p + j) with (z + p + 1 + (j - 1)) by (clear; lia). rewrite base_pow_split by (clear - J Hzp; lia).
    rewrite Z.mul_assoc, E. ring.
  Qed.

  Lemma long_div_gen (ex : bool) n : (ex = true -> (base ^ z | D 1)) -> forall buf r W c, let i := p + rnz + (Z.of_nat n - 1) in let V := sg buf 0 (i + 2) in
    uok buf -> uok r -> i + 1 < zlen buf -> rnz <= zlen buf -> zlen buf <= 100 -> Z.of_nat n <= zlen r ->
    0 <= W < D (Z.of_nat n) -> 0 <= W - V * base ^ z <= c * base ^ z -> 0 <= c -> c + Z.of_nat n <= 9 ->
    (ex = true -> 1 <= Z.of_nat n -> c = 0) -> (ex = false -> forall j, 0 <= j < Z.of_nat n -> (c = 0 /\ j = Z.of_nat n - 1) \/ 36 * D j <= base * (W mod D j)) ->
    (forall j, 1 <= j < Z.of_nat n -> 10 * D j <= base * (D j - W mod D j)) -> 10 * D (Z.of_nat n) <= base * (D (Z.of_nat n) - W) ->
    exists r', long_div m n b2 rnz d0 d1 buf i r = Ret r' /\ wrote r r' 0 (Z.of_nat n) /\ sg r' 0 (Z.of_nat n) = W / D 0.
  Proof.
    intros HE. induction n as [|n IH]; intros buf r W c i V U Ur Li Lrn Lb Lr HW HV Hc Hcn HX HL HU HDbg.
    - exists r. split; [reflexivity|]. split; [apply wrote_refl, Ur|]. change (Z.of_nat 0) with 0 in *. rewrite sg_nil by (clear; lia). symmetry. apply Z.div_small. exact HW.
    - replace (Z.of_nat (S n)) with (Z.of_nat n + 1) in * by (clear; lia). assert (EJ : exists j, j = Z.of_nat n) by eauto. destruct EJ as (j & EJ). rewrite <- EJ in *. assert (J : 0 <= j) by (clear - EJ; lia).
      assert (Ei : i = p + rnz + j) by (unfold i; clear - EJ; lia). clearbody i. assert (Hi : 0 <= i) by (clear - Ei Hp J; lia). assert (Hzi : 1 <= z + i) by (clear - Ei Hzp J R1; lia).
      destruct (Z.eq_dec j 0) as [J0|J0].
      { assert (n = O) as -> by (clear - EJ J0; lia). rewrite J0 in *. change (0 + 1) with 1 in *. rewrite Z.add_0_r in Ei.
        assert (Li' : p + rnz + 1 < zlen buf) by (clear - Ei Li; lia). assert (EV0 : V = sg buf 0 (p + rnz + 2)) by (unfold V; rewrite Ei; reflexivity).
        rewrite Ei. apply (long_last buf r V W c); try assumption; [clear - Hc Hcn; lia|].
        destruct ex; [left; apply HX; [reflexivity|clear; lia]|]. destruct (HL eq_refl 0 ltac:(clear; lia)) as [[? _]|?]; auto. }
      pose proof (D_pos j J) as PD. pose proof (D_succ j J) as ES. rewrite ES in HW, HDbg.
      pose proof (Z.div_mod W (D j) ltac:(clear - PD; lia)) as DM. pose proof (Z.mod_pos_bound W (D j) PD) as BM.
      assert (Bq : 0 <= W / D j < base) by (split; [apply Z.div_pos; [apply HW|exact PD]|apply Z.div_lt_upper_bound; [exact PD|apply HW]]).
      assert (J1 : 0 <= j < j + 1) by (clear - J; lia).
      pose proof (HU j ltac:(clear - J J0; lia)) as HUj.
      assert (HLj : c = 0 \/ 36 * D j <= base * (W mod D j)).
      { destruct ex; [left; apply HX; [reflexivity|clear - J; lia]|]. destruct (HL eq_refl j J1) as [[? _]|?]; auto. }
      assert (EQ : exists q, q = W / D j) by eauto. destruct EQ as (q & EQ). rewrite <- EQ in *.
      assert (ERr : exists r0, r0 = W mod D j) by eauto. destruct ERr as (r0 & ERr). rewrite <- ERr in *.
      pose proof (window3 buf i z U Hi Hz Hzi) as W3. cbv zeta in W3. fold V in W3. set (R3 := tops buf (i + 1) 3) in *.
      pose proof (D_top j J) as DT. cbv zeta in DT. rewrite <- Ei in DT. set (P := base ^ (z + i - 1)) in *.
      assert (PP : 0 < P) by (apply pow_base_pos; clear - Hzi; lia).
      assert (BZ : 0 <= base ^ z <= base * P).
      { split; [apply Z.lt_le_incl, pow_base_pos, Hz|]. unfold P. rewrite <- base_S by (clear - Hzi; lia). apply Z.pow_le_mono_r; [reflexivity|clear - Hi; lia]. }
      assert (C8 : 0 <= c <= 8) by (clear - Hc Hcn J; lia).
      destruct (guess_exact D2 P (D j) W (V * base ^ z) R3 q r0 c (base ^ z) PP (proj1 D2_bound) DT W3 HV BZ C8 ltac:(clear - DM; lia) BM ltac:(clear - Bq; lia) HUj HLj) as ((G1 & G2) & VQ).
      pose proof d0_bound as Bd0. pose proof d1_bound as Bd1. pose proof D2_bound as [BD2 BD2'].
      assert (E3 : R3 = (zn buf (i + 1) * base + zn buf i) * base + dg buf (i - 1)) by (apply tops3; [exact U|exact Hi]).
      set (R := zn buf (i + 1) * base + zn buf i) in *. pose proof (dg_bound buf (i - 1) U) as Bx.
      assert (HR : R < D2).
      { assert (X : R * base < D2 * base); [|apply Z.mul_lt_mono_pos_r in X; [exact X|reflexivity]].
        apply Z.le_lt_trans with R3; [clear - E3 Bx; lia|]. apply Z.lt_le_trans with ((q + 1) * D2); [exact G2|]. rewrite (Z.mul_comm D2). apply Z.mul_le_mono_nonneg_r; [clear - BD2; unfold base in *; lia|clear - Bq; lia]. }
      assert (HR' : m = Debug -> R < d0 * base).
      { intros Hm. apply (guess_debug d0 d1 P (D j) W (V * base ^ z) R PP H0 Bd1); [apply DT| |clear - HV; lia|exact HDbg].
        eapply Z.le_trans; [|apply W3]. apply Z.mul_le_mono_nonneg_r; [clear - PP; lia|]. clear - E3 Bx. lia. }
      cbn [long_div]. cbv zeta. rewrite (guess_ok m d0 d1 H0 (proj2 Bd0) Bd1 buf i U Hi Li Lb HR HR'). mret. fold R. rewrite <- E3. fold D2.
      assert (EG : R3 / D2 = q). { symmetry. apply (Z.div_unique _ _ q (R3 - D2 * q)); [left; clear - G1 G2; lia|clear; lia]. }
      rewrite EG.
      assert (Li' : p + rnz + j + 1 < zlen buf) by (rewrite <- Ei; exact Li). assert (EV0 : V = sg buf 0 (p + rnz + j + 2)) by (unfold V; rewrite <- Ei; reflexivity).
      assert (DM' : W = q * D j + r0) by (clear - DM; lia).
      destruct (long_step buf j V W q r0 c J U Li' EV0 HV DM' BM Bq VQ) as (buf' & cy & b & E & Wr & Hcy & T & HV' & HEx).
      clear EV0 Li'. rewrite <- Ei in *. rewrite E. mret. clear E.
      pose proof (wrote_zlen _ _ _ _ Wr) as L'. rewrite get_ok by (clear - L' Li Hi; lia). mret.
      assert (ET : zn buf' (i + 1) = zn buf (i + 1)) by (apply Wr; clear - Hi; lia). rewrite ET.
      pose proof (uok_zn buf (i + 1) U) as B2. rewrite as_i32_id by (clear - Hcy; unfold base in *; lia).
      rewrite i32_ok by (clear - B2 Hcy; unfold base in *; lia). mret. rewrite T. rewrite i32_ok by (clear; lia). mret. change (0 =? -1) with false. cbv iota.
      rewrite set_ok by (clear - L' Li Hi; lia). mret. mret. rewrite as_i32_id by (clear - Bq; unfold base in *; lia). rewrite <- EJ. rewrite set_ok by (clear - Lr J; lia). mret.
      pose proof (wrote_upd r j q Ur ltac:(clear - Lr J; lia) Bq) as W0. set (r1 := upd (Z.to_nat j) q r) in *.
      pose proof (wrote_upd buf' (i + 1) 0 ltac:(apply Wr) ltac:(clear - L' Li Hi; lia) ltac:(unfold base; clear; lia)) as W1.
      set (buf'' := upd (Z.to_nat (i + 1)) 0 buf') in *. pose proof (wrote_zlen _ _ _ _ W1) as L''. pose proof (wrote_zlen _ _ _ _ W0) as L0.
      assert (EV'' : sg buf'' 0 (i + 1) = sg buf' 0 (i + 1)) by (apply (wrote_sg _ _ _ _ 0 (i + 1) W1); clear; lia).
      destruct (IH buf'' r1 r0 (if ex && (1 <=? j) then 0 else c + 1)) as (r' & E' & W2 & Es).
      + apply W1.
      + apply W0.
      + rewrite <- ?EJ. clear - Ei Li L' L''. lia.
      + clear - L' L'' Lrn. lia.
      + clear - L' L'' Lb. lia.
      + rewrite <- ?EJ. clear - Lr L0. lia.
      + rewrite <- ?EJ. exact BM.
      + rewrite <- ?EJ. replace (p + rnz + (j - 1) + 2) with (i + 1) by (clear - Ei; lia). rewrite EV''. destruct (ex && (1 <=? j)) eqn:X; [|exact HV'].
        apply andb_true_iff in X. destruct X as [X1 X2]. apply Z.leb_le in X2. specialize (HX X1 ltac:(clear - J; lia)).
        rewrite <- HEx; [clear; lia| |apply D_div; [exact X2|apply HE, X1]]. rewrite HX in HV. clear - HV. lia.
      + destruct (ex && (1 <=? j)); clear - Hc; lia.
      + rewrite <- ?EJ. destruct (ex && (1 <=? j)); clear - Hcn Hc; lia.
      + intros X1 X2. rewrite X1. replace (1 <=? j) with true by (clear - X2 EJ; lia). reflexivity.
      + intros X1 k Hk. rewrite X1. cbn [andb]. right. rewrite ERr. rewrite D_mod by (clear - Hk EJ; lia).
        destruct (HL X1 k ltac:(clear - Hk EJ; lia)) as [[_ X]|X]; [clear - X Hk EJ; lia|exact X].
      + intros k Hk. rewrite ERr. rewrite D_mod by (clear - Hk EJ; lia). apply HU. clear - Hk EJ. lia.
      + rewrite <- ?EJ. exact HUj.
      + rewrite <- ?EJ in *. replace (p + rnz + (j - 1)) with (i - 1) in E' by (clear - Ei; lia). exists r'. split; [exact E'|].
        split; [eapply wrote_trans; [exact W0|exact W2|clear - J; lia..]|].
        rewrite sg_snoc by exact J. rewrite Es. replace (0 + j) with j by (clear; lia).
        assert (ZJ : zn r' j = q). { destruct W2 as (_ & _ & F). rewrite F by (clear - J; lia). unfold r1. apply zn_upd_eq. clear - Lr J. lia. }
        rewrite ZJ, DM'. assert (ED : D j = base ^ j * D 0). { unfold D, dshift. replace (z + p + j) with (z + p + 0 + j) by (clear; lia). rewrite base_pow_split by (clear - J Hzp; lia). ring. }
        rewrite ED. replace (q * (base ^ j * D 0)) with (base ^ j * q * D 0) by ring. rewrite Z.div_add_l by (pose proof (D_pos 0 ltac:(clear; lia)) as X; clear - X; lia). apply Z.add_comm.
  Qed.
End long.
