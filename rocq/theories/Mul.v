(** * [mul_abs]: the product array. *)
From Coq Require Import ZArith List Bool Lia QArith Qabs.
From Coq Require Import ZifyBool ZifyNat.
Import ListNotations.
From Verif Require Import Rust Tables Model_Base Model_Cmp Model_Round Model_Arith Spec Lib Cmp AddSub Sign AddTo.
Open Scope Z_scope.
Ltac Zify.zify_post_hook ::= Z.div_mod_to_equations.

Lemma uok_cons x l : uok (x :: l) <-> 0 <= x < base /\ uok l.
Proof. unfold uok. split; [intros H; inversion H; auto | intros [? ?]; constructor; auto]. Qed.
Lemma uok_app l l' : uok (l ++ l') <-> uok l /\ uok l'.
Proof. apply Forall_app. Qed.
Lemma sg_cons_list x l n : 0 <= n -> sg (x :: l) 0 (1 + n) = x + base * sg l 0 n.
Proof.
  intros H. rewrite sg_cons by lia. rewrite zn_cons by lia. cbn [Z.eqb]. do 2 f_equal.
  apply sg_ext. intros k Hk. rewrite zn_cons by lia. replace (0 + 1 + k =? 0) with false by lia. f_equal. lia.
Qed.

Lemma step_bounds x y o c : 0 <= x < base -> 0 <= y < base -> 0 <= o < base -> 0 <= c < base ->
  0 <= x * y + o + c < base * base.
Proof. unfold base. nia. Qed.

(** The inner loop where nothing is dropped. *)
Lemma mul_row_acc m lvs : forall li ri s rv r c idx, uok lvs -> uok r -> 0 <= rv < base -> 0 <= c < base ->
  idx = li + ri - s - 1 -> 0 <= li + ri - s -> li + ri - s + zlen lvs <= zlen r ->
  exists r' c', mul_row m lvs li ri s rv r c idx = Ret (r', c', li + ri - s + zlen lvs - 1) /\
    wrote r r' (li + ri - s) (zlen lvs) /\ 0 <= c' < base /\
    sg r' (li + ri - s) (zlen lvs) + base ^ zlen lvs * c' = sg r (li + ri - s) (zlen lvs) + rv * sg lvs 0 (zlen lvs) + c.
Proof.
  induction lvs as [|x lvs IH]; intros li ri s rv r c idx Hl Hr Hrv Hc -> Hp Hz.
  - exists r, c. cbn [mul_row]. change (zlen []) with 0. split; [do 2 f_equal; lia|].
    split; [apply wrote_refl, Hr|]. split; [exact Hc|]. rewrite !sg_nil by lia. rewrite Z.pow_0_r. lia.
  - apply uok_cons in Hl. destruct Hl as [Hx Hl]. pose proof (zlen_nonneg lvs) as Hn0. rewrite zlen_cons in *.
    cbn [mul_row]. cbv zeta. set (p := li + ri - s) in *.
    replace (p <? -1) with false by lia. replace (p =? -1) with false by lia.
    pose proof (uok_zn r p Hr) as Ho. pose proof (step_bounds x rv (zn r p) c Hx Hrv Ho Hc) as Hb.
    pose proof (step_bounds x rv (zn r p) 0 Hx Hrv Ho ltac:(unfold base; lia)) as Hb'.
    pose proof (step_bounds x rv 0 0 Hx Hrv ltac:(unfold base; lia) ltac:(unfold base; lia)) as Hb''.
    rewrite !Z.add_0_r in *. set (v := x * rv + zn r p + c) in *.
    assert (Bs : base * base = 1000000000000000000) by reflexivity.
    rewrite i64_ok by lia. mret. rewrite get_ok by lia. mret. rewrite i64_ok by lia. mret. fold v.
    rewrite i64_ok by lia. mret. change UNIT with base. rewrite i64_div_ok by (unfold base in *; lia). mret.
    assert (Hq : 0 <= v / base < base).
    { split; [apply Z.div_pos; unfold base in *; lia|]. apply Z.div_lt_upper_bound; unfold base in *; lia. }
    pose proof (Z.div_mod v base ltac:(unfold base; lia)) as Dm. pose proof (Z.mod_pos_bound v base ltac:(reflexivity)) as Hm.
    rewrite i64_ok by (unfold base in *; lia). mret. rewrite i64_ok by (unfold base in *; lia). mret.
    replace (v - v / base * base) with (v mod base) by lia.
    rewrite as_i32_id by (unfold base in *; lia). rewrite set_ok by lia. mret.
    pose proof (wrote_upd r p (v mod base) Hr ltac:(lia) Hm) as W0.
    destruct (IH (li + 1) ri s rv (upd (Z.to_nat p) (v mod base) r) (v / base) p) as (r' & c' & E & W & Hc' & Es);
      auto; try (rewrite ?zlen_upd; lia); [apply W0|].
    exists r', c'. replace (li + 1 + ri - s) with (p + 1) in * by (subst p; lia).
    split; [rewrite E; do 2 f_equal; lia|]. split; [eapply wrote_trans; [exact W0|exact W|lia..]|].
    split; [exact Hc'|].
    rewrite !(sg_cons _ p) by lia. rewrite sg_cons_list by lia.
    destruct W as (_ & _ & F). rewrite (F p) by lia. rewrite zn_upd_eq by lia.
    replace (1 + zlen lvs) with (zlen lvs + 1) by lia. rewrite base_S by lia.
    rewrite (sg_upd_out r (p + 1) (zlen lvs) p) in Es by lia.
    set (P := base ^ zlen lvs) in *. clearbody P. set (S1 := sg r' (p+1) (zlen lvs)) in *.
    set (S2 := sg r (p+1) (zlen lvs)) in *. set (S3 := sg lvs 0 (zlen lvs)) in *. clearbody S1 S2 S3.
    assert (E2 : base * (S1 + P * c') = base * (S2 + rv * S3 + v / base)) by (now rewrite Es).
    assert (Dv : v = x * rv + zn r p + c) by reflexivity. clearbody v. nia.
Qed.

Lemma mul_row_app m l1 : forall l2 li ri s rv r c idx,
  mul_row m (l1 ++ l2) li ri s rv r c idx =
  ('(r, c, idx) <- mul_row m l1 li ri s rv r c idx ;; mul_row m l2 (li + zlen l1) ri s rv r c idx).
Proof.
  induction l1 as [|x l1 IH]; intros l2 li ri s rv r c idx.
  - cbn [app mul_row]. mret. change (zlen []) with 0. rewrite Z.add_0_r. reflexivity.
  - cbn [app mul_row]. cbv zeta. rewrite zlen_cons. replace (li + (1 + zlen l1)) with (li + 1 + zlen l1) by lia.
    destruct (_ <? -1); [apply IH|]. destruct (_ =? -1).
    + destruct (i64 m (x * rv)); cbn [bind]; [|reflexivity]. destruct (_ <? UNIT); [apply IH|].
      destruct (i64_div m a UNIT); cbn [bind]; [|reflexivity]. apply IH.
    + repeat match goal with
      | |- context [bind ?o _] => match o with bind _ _ => fail 1 | mul_row _ _ _ _ _ _ _ _ _ => fail 1 | _ => destruct o; cbn [bind]; [|reflexivity] end
      end. apply IH.
Qed.

Lemma mul_row_skip m l : forall li ri s rv r c idx, idx = li + ri - s - 1 \/ l <> [] -> li + ri - s + zlen l <= -1 ->
  mul_row m l li ri s rv r c idx = Ret (r, c, li + ri - s + zlen l - 1).
Proof.
  induction l as [|x l IH]; intros li ri s rv r c idx Hi H.
  - cbn [mul_row]. change (zlen []) with 0 in *. destruct Hi; [|congruence]. do 2 f_equal. lia.
  - rewrite zlen_cons in *. pose proof (zlen_nonneg l). cbn [mul_row]. cbv zeta.
    replace (li + ri - s <? -1) with true by lia. rewrite IH by lia. do 2 f_equal. lia.
Qed.

Lemma firstn_skipn_cons (l : list Z) k : 0 <= k < zlen l ->
  l = (firstn (Z.to_nat k) l ++ zn l k :: skipn (Z.to_nat (k + 1)) l)%list.
Proof.
  intros H. rewrite <- (firstn_skipn (Z.to_nat k) l) at 1. f_equal.
  unfold zn, zlen in *. replace (Z.to_nat (k + 1)) with (S (Z.to_nat k)) by lia.
  assert (Hk : (Z.to_nat k < length l)%nat) by lia. clear H. revert Hk. generalize (Z.to_nat k). clear k.
  induction l as [|x l IH]; intros n Hk; cbn in Hk; [lia|]. destruct n as [|n]; [reflexivity|].
  cbn [skipn nth]. apply IH. lia.
Qed.

(** One row: [t] low units are dropped, except for the carry of the last. *)
Lemma mul_row_ok m A i s rv r : uok A -> uok r -> 0 <= rv < base -> 1 <= zlen A -> 0 <= i -> 0 <= s ->
  s - i <= zlen A -> zlen A + i - s <= zlen r ->
  let t := Z.max 0 (s - i) in let p := Z.max 0 (i - s) in let k := zlen A - t in
  exists r' c', mul_row m A 0 i s rv r 0 (-1) = Ret (r', c', zlen A + i - s - 1) /\
    wrote r r' p k /\ 0 <= c' < base /\
    let D := sg r' p k + base ^ k * c' - sg r p k in
    0 <= rv * sg A 0 (zlen A) - base ^ t * D /\
    (t = 0 -> rv * sg A 0 (zlen A) - base ^ t * D = 0) /\
    (t = 1 -> rv * sg A 0 (zlen A) - base ^ t * D < base) /\
    rv * sg A 0 (zlen A) - base ^ t * D < 2 * base ^ t.
Proof.
  intros HA Hr Hrv HnA Hi Hs Ht Hfit t p k.
  assert (Hb0 : 0 < base) by reflexivity.
  destruct (Z.leb_spec s i) as [L|L].
  - assert (t = 0) by (subst t; lia). assert (p = i - s) by (subst p; lia). assert (k = zlen A) by (subst k; lia).
    clearbody t p k. subst t p k.
    assert (E0 : mul_row m A 0 i s rv r 0 (-1) = mul_row m A 0 i s rv r 0 (0 + i - s - 1)).
    { destruct A; [cbn in HnA; lia|reflexivity]. }
    destruct (mul_row_acc m A 0 i s rv r 0 (0 + i - s - 1)) as (r' & c' & E & W & Hc & Es); auto; try lia.
    exists r', c'. replace (0 + i - s) with (i - s) in * by lia.
    split; [rewrite E0, E; do 2 f_equal; lia|]. split; [exact W|]. split; [exact Hc|]. cbv zeta.
    rewrite Z.pow_0_r. nia.
  - assert (Et : t = s - i) by (subst t; lia). assert (p = 0) by (subst p; lia). clearbody p. subst p.
    clearbody t. assert (Hk : k = zlen A - t) by reflexivity. clearbody k.
    pose proof (firstn_skipn_cons A (t - 1) ltac:(lia)) as EA.
    set (A1 := firstn (Z.to_nat (t - 1)) A) in *. set (y := zn A (t - 1)) in *. replace (t - 1 + 1) with t in EA by lia.
    set (A2 := skipn (Z.to_nat t) A) in *.
    assert (L1 : zlen A1 = t - 1) by (subst A1; rewrite zlen_firstn; lia).
    assert (L2 : zlen A2 = k) by (subst A2; rewrite zlen_skipn; lia).
    assert (Hy : 0 <= y < base) by (apply uok_zn, HA).
    assert (U2 : uok A2) by (apply Forall_skipn, HA).
    set (c0 := y * rv / base).
    assert (Hc0 : 0 <= c0 < base).
    { subst c0. split; [apply Z.div_pos; nia|]. apply Z.div_lt_upper_bound; nia. }
    (* the skipped part and the carry column *)
    assert (E1 : mul_row m A1 0 i s rv r 0 (-1) = Ret (r, 0, if t =? 1 then -1 else - 2)).
    { destruct (Z.eqb_spec t 1) as [T1|T1].
      - assert (A1 = []) as -> by (destruct A1; [reflexivity|rewrite zlen_cons in L1; pose proof (zlen_nonneg A1); lia]). reflexivity.
      - rewrite mul_row_skip; [do 2 f_equal; lia| |lia]. right. intros ->. cbn in L1. lia. }
    assert (E2 : mul_row m A 0 i s rv r 0 (-1) = mul_row m A2 t i s rv r c0 (-1)).
    { rewrite EA at 1. rewrite mul_row_app, E1. mret. cbn [mul_row]. rewrite L1.
      replace (0 + (t - 1) + i - s) with (-1) by lia. cbn [Z.ltb Z.eqb Z.compare Pos.compare Pos.compare_cont Pos.eqb].
      cbv zeta. change (-1 <? -1) with false. change (-1 =? -1) with true. cbv iota.
      assert (Hv : 0 <= y * rv < 1000000000000000000) by (unfold base in *; nia).
      rewrite i64_ok by lia. mret. change UNIT with base.
      replace (0 + (t - 1) + 1) with t by lia.
      destruct (Z.ltb_spec (y * rv) base) as [Lv|Lv].
      - subst c0. rewrite Z.div_small by lia. reflexivity.
      - rewrite i64_div_ok by lia. mret. reflexivity. }
    destruct (mul_row_acc m A2 t i s rv r c0 (-1)) as (r' & c' & E & W & Hc & Es); auto; try lia.
    replace (t + i - s) with 0 in * by lia. rewrite L2 in *.
    exists r', c'. split; [rewrite E2, E; do 2 f_equal; lia|]. split; [exact W|]. split; [exact Hc|]. cbv zeta.
    assert (SA : sg A 0 (zlen A) = sg A 0 (t - 1) + base ^ (t - 1) * y + base ^ t * sg A2 0 k).
    { replace (zlen A) with (t - 1 + 1 + k) by lia. rewrite (sg_app _ 0 (t - 1 + 1)) by lia. rewrite sg_snoc by lia.
      replace (0 + (t - 1)) with (t - 1) by lia. replace (t - 1 + 1) with t by lia. do 2 f_equal. 
      apply sg_ext. intros j Hj. subst A2. rewrite zn_skipn by lia. f_equal. lia. }
    pose proof (sg_bound A 0 (t - 1) HA ltac:(lia)) as B1.
    assert (Bt : base ^ t = base * base ^ (t - 1)) by (replace t with (t - 1 + 1) at 1 by lia; apply base_S; lia).
    replace (sg r' 0 k + base ^ k * c' - sg r 0 k) with (rv * sg A2 0 k + c0) by lia.
    rewrite SA, Bt. pose proof (Z.div_mod (y * rv) base ltac:(lia)) as Dm. fold c0 in Dm.
    pose proof (Z.mod_pos_bound (y * rv) base Hb0) as Bm.
    assert (T1 : t = 1 -> base ^ (t - 1) = 1) by (intros ->; reflexivity).
    set (P := base ^ (t - 1)) in *. set (q := (y * rv) mod base) in *. set (L0 := sg A 0 (t - 1)) in *.
    set (S2 := sg A2 0 k) in *. clearbody P q L0 S2 c0.
    replace (rv * (L0 + P * y + base * P * S2) - base * P * (rv * S2 + c0)) with (rv * L0 + P * (y * rv - base * c0)) by ring.
    replace (y * rv - base * c0) with q by lia.
    repeat apply conj.
    + nia.
    + lia.
    + intros T. rewrite (T1 T) in *. nia.
    + assert (rv * L0 <= base * P) by nia. assert (P * q < P * base) by nia. nia.
Qed.

Lemma row_total r r1 p k c1 : uok r -> zlen r = 9 -> wrote r r1 p k -> 0 <= p -> 0 <= k -> p + k < 9 -> 0 <= c1 < base -> zn r (p + k) = 0 ->
  let r2 := upd (Z.to_nat (p + k)) c1 r1 in
  wrote r1 r2 (p + k) 1 /\ zlen r2 = 9 /\
  sg r2 0 9 - sg r 0 9 = base ^ p * (sg r1 p k + base ^ k * c1 - sg r p k).
Proof.
  intros Hr Lr W Hp Hk L9 Hc1 Hz r2. pose proof (wrote_zlen _ _ _ _ W) as L1. rewrite Lr in L1.
  pose proof (wrote_upd r1 (p + k) c1 ltac:(apply W) ltac:(lia) Hc1) as W2. fold r2 in W2.
  split; [exact W2|]. split; [subst r2; rewrite zlen_upd; exact L1|].
  replace 9 with (p + (k + 1) + (8 - p - k)) by lia.
  rewrite !(sg_app _ 0 (p + (k + 1))) by lia. rewrite !(sg_app _ 0 p) by lia. rewrite !(sg_snoc _ (0 + p) k) by lia.
  replace (0 + p) with p by lia. replace (0 + (p + (k + 1))) with (p + k + 1) by lia.
  rewrite (wrote_sg _ _ _ _ 0 p W2), (wrote_sg _ _ _ _ p k W2), (wrote_sg _ _ _ _ (p + k + 1) _ W2) by lia.
  rewrite (wrote_sg _ _ _ _ 0 p W), (wrote_sg _ _ _ _ (p + k + 1) _ W) by lia.
  rewrite Hz. subst r2. rewrite zn_upd_eq by lia. ring.
Qed.
Lemma row_total9 r r1 p k c1 : wrote r r1 p k -> 0 <= p -> 0 <= k -> p + k = 9 ->
  sg r1 0 9 + base ^ 9 * c1 - sg r 0 9 = base ^ p * (sg r1 p k + base ^ k * c1 - sg r p k).
Proof.
  intros W Hp Hk H9. replace (base ^ 9) with (base ^ p * base ^ k) by (rewrite <- base_pow_split by lia; f_equal; lia).
  rewrite <- H9. rewrite !(sg_app _ 0 p) by lia. replace (0 + p) with p by lia.
  rewrite (wrote_sg _ _ _ _ 0 p W) by lia. ring.
Qed.

(** The error bounds of one row and of the rest add up. *)
Lemma row_errors s i n P Pi Pt X Y : 0 <= n -> 0 < P -> 0 < Pi -> 0 < Pt ->
  (i < s -> P = Pi * Pt) -> (s = i + 1 -> Pt = base) ->
  0 <= X -> (s <= i -> X = 0) -> (s = i + 1 -> X < base) -> X < 2 * Pt ->
  0 <= Y -> (s <= i + 1 -> Y = 0) -> Y <= (2 * P - 1) * Z.max 0 (Z.min n (s - (i + 1))) ->
  0 <= Pi * X + Y /\ (s <= i -> Pi * X + Y = 0) /\ (s = i + 1 -> Pi * X + Y < P) /\
  Pi * X + Y <= (2 * P - 1) * Z.max 0 (Z.min (1 + n) (s - i)).
Proof.
  intros Hn HP HPi HPt E1 E2 X0 X1 X2 X3 Y0 Y1 Y2.
  repeat apply conj.
  - nia.
  - intros H. rewrite X1, Y1 by lia. lia.
  - intros H. rewrite Y1 by lia. rewrite E1 by lia. specialize (X2 H). specialize (E2 H). clear - X2 E2 HPi. nia.
  - destruct (Z.le_gt_cases s i) as [Q|Q].
    + rewrite X1, Y1 by lia. nia.
    + specialize (E1 Q). assert (Hx : Pi * X <= 2 * P - 1) by (clear - E1 X3 HPi; nia).
      replace (Z.max 0 (Z.min (1 + n) (s - i))) with (1 + Z.max 0 (Z.min n (s - (i + 1)))) by lia.
      clear - Hx Y2. nia.
Qed.

(** All rows.  [c'] is what would go to index 9. *)
Lemma mul_rows_ok m A s B : forall i r, uok A -> uok B -> uok r -> zlen r = 9 -> 1 <= zlen A -> 0 <= i -> 0 <= s ->
  s - i <= zlen A -> (m = Debug -> s - i < zlen A) -> zlen A + i + zlen B - s <= 10 ->
  (forall k, 0 <= k -> zlen A + i - s <= k -> zn r k = 0) ->
  exists rs r' c', mul_rows m B A i s r = Ret (rs, r') /\ zlen r' = 9 /\ uok r' /\ 0 <= c' < base /\
    ((rs = Ok tt /\ c' = 0) \/ (rs = Err Overflow /\ 0 < c' /\ zlen A + i + zlen B - s = 10)) /\
    (forall k, 0 <= k -> zlen A + i + zlen B - s <= k -> zn r' k = 0) /\
    let E := base ^ i * (sg A 0 (zlen A) * sg B 0 (zlen B)) - base ^ s * (sg r' 0 9 + base ^ 9 * c' - sg r 0 9) in
    0 <= E /\ (s <= i -> E = 0) /\ (s = i + 1 -> E < base ^ s) /\
    E <= (2 * base ^ s - 1) * Z.max 0 (Z.min (zlen B) (s - i)).
Proof.
  induction B as [|rv B IH]; intros i r HA HB Hr Lr HnA Hi Hs Ht HtD Hfit Hz.
  - exists (Ok tt), r, 0. cbn [mul_rows]. change (zlen []) with 0 in *. rewrite Z.add_0_r in *.
    split; [reflexivity|]. split; [exact Lr|]. split; [exact Hr|]. split; [unfold base; lia|].
    split; [auto|]. split; [exact Hz|]. cbv zeta. rewrite (sg_nil []) by lia.
    replace (base ^ i * (sg A 0 (zlen A) * 0) - base ^ s * (sg r 0 9 + base ^ 9 * 0 - sg r 0 9)) with 0 by ring.
    pose proof (pow_base_pos s Hs). lia.
  - apply uok_cons in HB. destruct HB as [Hrv HB]. rewrite zlen_cons in *. pose proof (zlen_nonneg B) as HnB.
    cbn [mul_rows].
    destruct (mul_row_ok m A i s rv r HA Hr Hrv HnA Hi Hs Ht ltac:(lia)) as (r1 & c1 & E1 & W & Hc1 & HD).
    rewrite E1. mret. cbv zeta in HD.
    set (t := Z.max 0 (s - i)) in *. set (p := Z.max 0 (i - s)) in *. set (k := zlen A - t) in *.
    assert (Hpk : p + k = zlen A + i - s) by (clear HD; lia). assert (Hp : 0 <= p) by (clear HD; lia). assert (Hk : 0 <= k) by (clear HD; lia).
    assert (Htt : 0 <= t) by (clear HD; lia). assert (Hti : t - p = s - i) by (clear HD; lia).
    assert (Ht0 : s <= i -> t = 0) by (clear HD; lia). assert (Ht1 : i < s -> t = s - i) by (clear HD; lia).
    assert (da : debug_assert m (zlen A + i - s - 1 >=? 0) = Ret tt).
    { destruct m; [|reflexivity]. apply debug_assert_ok. clear HD; lia. }
    rewrite da. mret. clear da. change MAX_UNITS with 9. clearbody t p k.
    replace (zlen A + i - s - 1 + 1) with (p + k) by (clear HD; lia).
    assert (Bs : base ^ s * base ^ p = base ^ i * base ^ t) by (clear HD; rewrite <- !base_pow_split by lia; f_equal; lia).
    pose proof (pow_base_pos i Hi) as Pi. pose proof (pow_base_pos s Hs) as Ps.
    pose proof (pow_base_pos t Htt) as Pt. pose proof (pow_base_pos p Hp) as Pp.
    assert (Eb : i < s -> base ^ s = base ^ i * base ^ t) by (clear HD; intros Q; rewrite <- base_pow_split by lia; f_equal; lia).
    assert (Eb1 : s = i + 1 -> base ^ t = base) by (clear HD Bs Pi Ps Pt Pp Eb; intros Q; replace t with 1 by lia; apply Z.pow_1_r).
    pose proof (wrote_zlen _ _ _ _ W) as L1. rewrite Lr in L1.
    destruct HD as (D0 & D1 & D2 & D3).
    assert (D1' : s <= i -> rv * sg A 0 (zlen A) - base ^ t * (sg r1 p k + base ^ k * c1 - sg r p k) = 0) by (intros; apply D1; auto).
    assert (D2' : s = i + 1 -> rv * sg A 0 (zlen A) - base ^ t * (sg r1 p k + base ^ k * c1 - sg r p k) < base).
    { intros Q. apply D2. clear - Q Ht1. lia. }
    clear D1 D2. remember (sg r1 p k + base ^ k * c1 - sg r p k) as D eqn:ED.
    remember (rv * sg A 0 (zlen A) - base ^ t * D) as X eqn:EX.
    destruct (Z.ltb_spec (p + k) 9) as [L9|L9].
    + rewrite as_i32_id by (clear - Hc1; unfold base in *; lia). rewrite set_ok by (clear - Hp Hk L1 L9; lia). mret.
      destruct (row_total r r1 p k c1 Hr Lr W Hp Hk L9 Hc1) as (W2 & L2 & V2).
      { apply Hz; clear - Hp Hk Hpk; lia. }
      set (r2 := upd (Z.to_nat (p + k)) c1 r1) in *. clearbody r2. rewrite <- ED in V2.
      destruct (IH (i + 1) r2) as (rs & r' & c' & E & L' & U' & Hc' & Hrs & Hz' & HE); auto; try (clear - Hi Ht HtD Hfit; lia).
      * apply W2.
      * intros q Hq Hq2. destruct W2 as (_ & _ & F2). destruct W as (_ & _ & F1).
        rewrite F2, F1 by (clear - Hq Hq2 Hpk; lia). apply Hz; clear - Hq Hq2; lia.
      * exists rs, r', c'. split; [exact E|]. split; [exact L'|]. split; [exact U'|]. split; [exact Hc'|].
        split; [clear - Hrs; destruct Hrs as [|(? & ? & ?)]; [auto|right; repeat split; auto; lia]|].
        split; [intros q Hq1 Hq2; apply Hz'; clear - Hq1 Hq2; lia|]. cbv zeta in HE. cbv zeta.
        rewrite sg_cons_list by exact HnB. rewrite base_S in HE by exact Hi.
        destruct HE as (E0 & E2 & E3 & E4).
        remember (base * base ^ i * (sg A 0 (zlen A) * sg B 0 (zlen B)) - base ^ s * (sg r' 0 9 + base ^ 9 * c' - sg r2 0 9)) as Y eqn:EY.
        replace (base ^ i * (sg A 0 (zlen A) * (rv + base * sg B 0 (zlen B))) - base ^ s * (sg r' 0 9 + base ^ 9 * c' - sg r 0 9))
          with (base ^ i * X + Y).
        2:{ rewrite EX, EY. replace (sg r' 0 9 + base ^ 9 * c' - sg r 0 9) with ((sg r' 0 9 + base ^ 9 * c' - sg r2 0 9) + base ^ p * D) by (clear - V2; lia).
            set (X1 := sg r' 0 9 + base ^ 9 * c' - sg r2 0 9).
            replace (base ^ s * (X1 + base ^ p * D)) with (base ^ s * X1 + base ^ i * base ^ t * D) by (rewrite <- Bs; ring). ring. }
        apply (row_errors s i (zlen B) (base ^ s) (base ^ i) (base ^ t) X Y); auto.
    + (* only the last row reaches index 9 *)
      assert (B = []) as -> by (clear - Hfit Hpk L9; destruct B; [reflexivity|rewrite zlen_cons in Hfit; pose proof (zlen_nonneg B); lia]).
      change (zlen []) with 0 in *. rewrite Z.add_0_r in Hfit.
      assert (Hpk9 : p + k = 9) by (clear - Hpk Hfit L9; lia).
      exists (if c1 >? 0 then Err Overflow else Ok tt), r1, c1.
      split; [destruct (c1 >? 0); reflexivity|]. split; [exact L1|]. split; [apply W|]. split; [exact Hc1|].
      split; [clear - Hpk Hpk9 Hc1; destruct (Z.gtb_spec c1 0); [right|left]; split; auto; [split; lia|lia]|].
      split; [intros q Hq1 Hq2; apply zn_out; clear - Hq1 Hq2 Hpk Hpk9 L1; lia|]. cbv zeta. rewrite sg_cons_list by reflexivity. rewrite (sg_nil []) by reflexivity.
      rewrite (row_total9 r r1 p k c1 W Hp Hk Hpk9). rewrite <- ED. replace (base ^ s * (base ^ p * D)) with (base ^ i * base ^ t * D) by (rewrite <- Bs; ring).
      replace (base ^ i * (sg A 0 (zlen A) * (rv + base * 0)) - base ^ i * base ^ t * D) with (base ^ i * X + 0) by (rewrite EX; ring).
      apply (row_errors s i 0 (base ^ s) (base ^ i) (base ^ t) X 0); auto; clear - Ps; try lia; nia.
Qed.
