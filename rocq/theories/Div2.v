(** * Division: normalization and one quotient unit. *)
From Coq Require Import ZArith List Bool Lia.
From Coq Require Import ZifyBool ZifyNat.
From Verif Require Import Rust Tables Model_Base Model_Cmp Model_Arith Spec Lib Cmp AddSub Sign Mul DivBasics Div.
Import ListNotations.
Open Scope Z_scope.
Ltac Zify.zify_post_hook ::= Z.div_mod_to_equations.

Lemma base2 : base * base = 1000000000000000000. Proof. reflexivity. Qed.

Lemma norm_units_ok m nf : 0 <= nf < base -> forall l c, uok l -> 0 <= c < base ->
  exists l' c', norm_units m nf l c = Ret (l', c') /\ uok l' /\ zlen l' = zlen l /\ 0 <= c' < base /\
    sg l' 0 (zlen l) + base ^ zlen l * c' = nf * sg l 0 (zlen l) + c.
Proof.
  intros Hnf. induction l as [|x l IH]; intros c U Hc.
  - exists [], c. cbn [norm_units]. change (zlen []) with 0. rewrite !sg_nil by lia. rewrite Z.pow_0_r.
    split; [reflexivity|]. split; [constructor|]. lia.
  - apply uok_cons in U. destruct U as [Hx U]. cbn [norm_units].
    pose proof (step_bounds x nf 0 c Hx Hnf ltac:(unfold base; lia) Hc) as B. rewrite Z.add_0_r in B.
    pose proof (step_bounds x nf 0 0 Hx Hnf ltac:(unfold base; lia) ltac:(unfold base; lia)) as B0. rewrite !Z.add_0_r in B0. rewrite base2 in *.
    set (v := x * nf + c) in *. assert (Dv : v = x * nf + c) by reflexivity. clearbody v.
    rewrite i64_ok by lia. mret. rewrite <- Dv. rewrite i64_ok by lia. mret. change UNIT with base.
    rewrite i64_div_ok by (unfold base; lia). mret.
    assert (Hq : 0 <= v / base < base) by (clear - B; unfold base; lia).
    pose proof (Z.div_mod v base ltac:(unfold base; lia)) as Dm. pose proof (Z.mod_pos_bound v base ltac:(reflexivity)) as Hm.
    rewrite i64_ok by (clear - Hq; unfold base in *; lia). mret. rewrite i64_ok by (clear - B Hq Dm Hm; unfold base in *; lia). mret.
    replace (v - v / base * base) with (v mod base) by (clear - Dm; lia).
    destruct (IH (v / base) U Hq) as (l' & c' & E & U' & L' & Hc' & Es). rewrite E. mret.
    rewrite as_i32_id by (clear - Hm; unfold base in *; lia).
    exists (v mod base :: l'), c'. split; [reflexivity|]. split; [apply uok_cons; split; [exact Hm|exact U']|].
    rewrite !zlen_cons. split; [lia|]. split; [exact Hc'|].
    pose proof (zlen_nonneg l). rewrite !sg_cons_list by lia. replace (1 + zlen l) with (zlen l + 1) by lia. rewrite base_S by lia.
    clear - Es Dv Dm. set (P := base ^ zlen l) in *. set (s1 := sg l' 0 (zlen l)) in *. set (s2 := sg l 0 (zlen l)) in *. clearbody P s1 s2.
    replace (v mod base + base * s1 + base * P * c') with (v mod base + base * (s1 + P * c')) by ring. rewrite Es.
    replace (nf * (x + base * s2) + c) with (v + base * (nf * s2)) by (rewrite Dv; ring).
    clear Dv. revert Dm. generalize (v / base) (v mod base). intros q r ->. ring.
Qed.

(** ** The guess of a quotient unit by a divisor of two significant units *)
Section guess.
  Variables (m : build) (d0 d1 : Z).
  Hypothesis H0 : base <= 4 * d0.
  Hypothesis H0' : d0 < base.
  Hypothesis H1 : 0 <= d1 < base.
  Let D := d0 * base + d1.

  Lemma qhat_loop_ok fuel : forall qhat rhat R u2, 0 <= u2 < base -> 0 <= R < D -> 0 <= rhat -> R = qhat * d0 + rhat ->
    (R * base + u2) / D <= qhat -> qhat < (R * base + u2) / D + Z.of_nat fuel -> rhat + Z.of_nat fuel * d0 <= 9 * base ->
    qhat_loop m fuel qhat rhat d0 d1 u2 = Ret ((R * base + u2) / D).
  Proof.
    induction fuel as [|fuel IH]; intros qhat rhat R u2 Hu HR Hrh0 ER Hq Hf HB; [lia|].
    assert (Hrh : 0 <= rhat <= 9 * base) by (assert (0 <= Z.of_nat (S fuel) * d0) by (apply Z.mul_nonneg_nonneg; unfold base in *; lia); lia).
    assert (Hd : 0 < d0) by (unfold base in *; lia). assert (HD : 0 < D) by (unfold D, base in *; lia).
    set (u := R * base + u2) in *. set (q := u / D) in *.
    assert (BR : R < base * base) by (unfold D, base in *; lia).
    assert (Bu : 0 <= u < D * base) by (unfold u, base in *; lia).
    assert (Q0 : 0 <= q < base) by (unfold q; split; [apply Z.div_pos; lia|apply Z.div_lt_upper_bound; lia]).
    assert (Bq : 0 <= qhat) by lia.
    assert (Bq' : qhat <= 5 * base).
    { clear - H0 Hd ER BR Hrh Bq. unfold base in *. nia. }
    assert (Bqd : 0 <= qhat * d1 <= 5 * base * base) by (clear - Bq Bq' H1; unfold base in *; nia).
    cbn [qhat_loop]. change UNIT with base. rewrite i64_ok by (clear - Bqd; unfold base in *; lia). mret.
    rewrite i64_ok by (clear - Hrh; unfold base in *; lia). mret. rewrite i64_ok by (clear - Hrh Hu; unfold base in *; lia). mret.
    assert (EQ : qhat * d1 - (rhat * base + u2) = qhat * D - u).
    { unfold D, u. rewrite ER. ring. }
    assert (DM : u = D * q + u mod D) by (apply Z.div_mod; lia). pose proof (Z.mod_pos_bound u D HD) as BM.
    destruct (Z.gtb_spec (qhat * d1) (rhat * base + u2)) as [G|G].
    - assert (QQ : q < qhat). { clear - EQ G DM BM HD Hq. nia. }
      rewrite i64_ok by (clear - Bq' QQ Q0; unfold base in *; lia). mret. rewrite i64_ok by (clear - Hrh H0' Hd; unfold base in *; lia). mret.
      apply IH; try assumption; try (clear - ER; rewrite ER; ring); try lia.
      1,2: fold u q; clear - QQ Hf; lia.
    - f_equal. assert (qhat < q + 1); [|lia]. clear - EQ G DM BM HD. nia.
  Qed.

  Lemma guess_ok buf i : uok buf -> 0 <= i -> i + 1 < zlen buf -> zlen buf <= 100 ->
    let R := zn buf (i + 1) * base + zn buf i in R < D -> (m = Debug -> R < d0 * base) ->
    guess_qhat m buf i d0 d1 = Ret ((R * base + dg buf (i - 1)) / D).
  Proof.
    intros U Hi Li Lb R HR HDbg. unfold guess_qhat. rewrite as_usize_id by lia. rewrite usize_ok by lia. mret.
    rewrite get_ok by lia. mret. replace (i >=? 0) with true by lia. rewrite get_ok by lia. mret.
    pose proof (uok_zn buf (i + 1) U) as B0. pose proof (uok_zn buf i U) as B1. pose proof (dg_bound buf (i - 1) U) as B2.
    change UNIT with base. rewrite i64_ok by (clear - B0; unfold base in *; lia). mret. fold R.
    assert (BR : 0 <= R < base * base) by (unfold R; clear - B0 B1; unfold base in *; lia).
    assert (Hd : 0 < d0) by (unfold base in *; lia). assert (HD : 0 < D) by (unfold D, base in *; lia).
    rewrite i64_ok by (clear - BR; unfold base in *; lia). mret.
    rewrite i64_div_ok by (clear - BR Hd; unfold base in *; lia). mret.
    clearbody R. pose proof (Z.div_mod R d0 ltac:(lia)) as DM. pose proof (Z.mod_pos_bound R d0 Hd) as BM.
    assert (Bq : 0 <= R / d0 <= base + 4).
    { split; [apply Z.div_pos; lia|]. assert (R / d0 < base + 5); [|lia]. apply Z.div_lt_upper_bound; [lia|]. unfold D, base in *. lia. }
    rewrite i64_ok by (clear - DM BM BR Bq Hd; unfold base in *; nia). mret.
    rewrite i64_ok by (clear - DM BM BR Bq Hd; unfold base in *; nia). mret.
    replace (R - R / d0 * d0) with (R mod d0) by (clear - DM; lia).
    assert (EA : debug_assert m (R / d0 <? base) = Ret tt).
    { destruct m; [|reflexivity]. cbn. replace (R / d0 <? base) with true; [reflexivity|]. symmetry. apply Z.ltb_lt.
      apply Z.div_lt_upper_bound; [exact Hd|]. apply HDbg. reflexivity. }
    rewrite EA. mret.
    assert (E2 : (if i >? 0 then get buf (i - 1) else Ret 0) = Ret (dg buf (i - 1))).
    { unfold dg. destruct (Z.gtb_spec i 0); [replace (i - 1 <? 0) with false by lia; apply get_ok; lia|replace (i - 1 <? 0) with true by lia; reflexivity]. }
    rewrite E2. mret. set (u2 := dg buf (i - 1)) in *. clearbody u2. clear E2 EA B0 B1.
    set (q := R / d0) in *. assert (DQ : (R * base + u2) / D <= q).
    { assert ((R * base + u2) / D < q + 1); [|lia]. apply Z.div_lt_upper_bound; [exact HD|]. unfold D. clear - DM BM B2 H1 Bq Hd.
      unfold base in *. nia. }
    apply qhat_loop_ok; try assumption; try (clear - DM; lia); try (clear - BM H0'; unfold base in *; lia); try lia.
    - unfold qhat_fuel. assert (q - 5 <= (R * base + u2) / D); [|lia].
      apply Z.div_le_lower_bound; [exact HD|].
      assert (q * d1 <= base * d1 + 4 * d1) by (clear - Bq H1; nia). unfold D.
      replace ((d0 * base + d1) * (q - 5)) with (d0 * q * base + q * d1 - 5 * d0 * base - 5 * d1) by ring.
      assert (d0 * q * base <= R * base) by (clear - DM BM; unfold base; lia).
      assert (base * d1 <= 4 * d0 * base) by (clear - H0 H1; unfold base in *; lia). clear - H H2 H3 H1 B2 Hd. unfold base in *. lia.
    - unfold qhat_fuel. clear - BM H0'. unfold base in *. lia.
  Qed.

  (** Multiply and subtract. *)
  Lemma upd_same l i : 0 <= i < zlen l -> upd (Z.to_nat i) (zn l i) l = l.
  Proof.
    intros H. apply zn_ext; [apply upd_length|]. rewrite zlen_upd. intros k Hk. destruct (Z.eq_dec k i) as [->|N]; [apply zn_upd_eq; lia|].
    apply zn_upd_ne; lia.
  Qed.
  Lemma mul_sub_zeros q t k : forall buf ms, uok buf -> ms + Z.of_nat k <= zlen buf ->
    mul_sub m (repeat 0 k ++ t) q buf ms 0 0 = mul_sub m t q buf (ms + Z.of_nat k) 0 0.
  Proof.
    induction k as [|k IH]; intros buf ms U L; [cbn [repeat app]; f_equal; lia|].
    cbn [repeat app mul_sub]. rewrite Z.mul_0_r. rewrite i64_ok by lia. mret. rewrite i64_ok by lia. mret. rewrite i64_div_ok by (unfold UNIT; lia). mret.
    change (0 + 0) with 0. change (0 / UNIT) with 0. rewrite Z.mul_0_l. rewrite i64_ok by lia. mret. rewrite i64_ok by lia. mret.
    change (as_i32 (0 - 0)) with 0.
    destruct (Z.ltb_spec ms 0) as [N|N].
    - destruct (sub_with_borrow_ok m 0 0 0) as (r & c & E & Hr & Hc & Es); try (unfold base; lia). rewrite E. mret.
      replace c with 0 by (unfold base in *; lia). rewrite IH by (auto; lia). f_equal. lia.
    - rewrite get_ok by lia. mret. pose proof (uok_zn buf ms U) as B.
      destruct (sub_with_borrow_ok m (zn buf ms) 0 0) as (r & c & E & Hr & Hc & Es); try (unfold base in *; lia). rewrite E. mret.
      assert (c = 0) as -> by (unfold base in *; lia). assert (r = zn buf ms) as -> by lia.
      rewrite set_ok by lia. mret. rewrite upd_same by lia. rewrite IH by (auto; lia). f_equal. lia.
  Qed.

  (** One digit: [u = q * D + r]. *)
  Lemma digit_step q x0 x1 x2 : 0 <= x0 < base -> 0 <= x1 < base -> 0 <= x2 < base ->
    let u := (x2 * base + x1) * base + x0 in 0 <= q < base -> 0 <= u - q * D < D ->
    exists s0 b0 s1 b1, sub_with_borrow m x0 (q * d1 mod base) 0 = Ret (s0, b0) /\
      sub_with_borrow m x1 ((q * d0 + q * d1 / base) mod base) b0 = Ret (s1, b1) /\
      0 <= s0 < base /\ 0 <= s1 < base /\ -1 <= b0 <= 0 /\ b1 + (x2 - (q * d0 + q * d1 / base) / base) = 0 /\
      s1 * base + s0 = u - q * D /\ 0 <= (q * d0 + q * d1 / base) / base < base.
  Proof.
    intros B0 B1 B2 u Hq HU. set (c1 := q * d1 / base).
    assert (P1 : 0 <= q * d1 < base * base) by (clear - Hq H1; unfold base in *; nia).
    assert (Hd : 0 < d0) by (unfold base in *; lia).
    assert (Bc : 0 <= c1 < base) by (unfold c1; clear - P1; unfold base in *; lia).
    assert (P2 : 0 <= q * d0 + c1 < base * base) by (clear - Hq H0' Hd Bc; unfold base in *; nia).
    pose proof (Z.div_mod (q * d1) base ltac:(unfold base; lia)) as DM1. pose proof (Z.mod_pos_bound (q * d1) base ltac:(reflexivity)) as BM1. fold c1 in DM1.
    pose proof (Z.div_mod (q * d0 + c1) base ltac:(unfold base; lia)) as DM2. pose proof (Z.mod_pos_bound (q * d0 + c1) base ltac:(reflexivity)) as BM2.
    destruct (sub_with_borrow_ok m x0 (q * d1 mod base) 0 B0 BM1 ltac:(lia)) as (s0 & b0 & E0 & S0 & Hb0 & F0).
    destruct (sub_with_borrow_ok m x1 ((q * d0 + c1) mod base) b0 B1 BM2 Hb0) as (s1 & b1 & E1 & S1 & Hb1 & F1).
    exists s0, b0, s1, b1. split; [exact E0|]. split; [exact E1|]. split; [exact S0|]. split; [exact S1|]. split; [exact Hb0|].
    set (c2 := (q * d0 + c1) / base) in *. set (m1 := q * d1 mod base) in *. set (m2 := (q * d0 + c1) mod base) in *.
    assert (BC2 : 0 <= c2 < base) by (unfold c2; clear - P2; unfold base in *; lia).
    assert (TT : u - q * D = (b1 + (x2 - c2)) * base * base + s1 * base + s0).
    { unfold u, D. replace (q * (d0 * base + d1)) with (q * d0 * base + q * d1) by ring. rewrite DM1.
      replace (q * d0) with (base * c2 + m2 - c1) by (clear - DM2; lia).
      replace s1 with (x1 - m2 + b0 - base * b1) by (clear - F1; lia). replace s0 with (x0 - m1 + 0 - base * b0) by (clear - F0; lia). ring. }
    assert (BD : D < base * base) by (unfold D; clear - H0' H1; unfold base in *; lia).
    assert (T0 : b1 + (x2 - c2) = 0).
    { set (t := b1 + (x2 - c2)) in *. clearbody t u D. clear - TT HU BD S0 S1. unfold base in *. lia. }
    split; [exact T0|]. split; [|exact BC2]. rewrite TT, T0. ring.
  Qed.

  Lemma mul_sub_one buf ms d q c b : uok buf -> ms < zlen buf -> 0 <= d < base -> 0 <= q < base -> 0 <= c < base -> -1 <= b <= 0 ->
    forall t, mul_sub m (d :: t) q buf ms c b =
      ('(s, b') <- sub_with_borrow m (dg buf ms) ((q * d + c) mod base) b ;;
       mul_sub m t q (if ms <? 0 then buf else upd (Z.to_nat ms) s buf) (ms + 1) ((q * d + c) / base) b').
  Proof.
    intros U L Hd Hq Hc Hb t. cbn [mul_sub].
    pose proof (step_bounds q d 0 c Hq Hd ltac:(unfold base; lia) Hc) as B. pose proof (step_bounds q d 0 0 Hq Hd ltac:(unfold base; lia) ltac:(unfold base; lia)) as B'.
    rewrite !Z.add_0_r in *. rewrite base2 in *. rewrite i64_ok by (clear - B'; lia). mret. rewrite i64_ok by (clear - B; lia). mret.
    set (v := q * d + c) in *. clearbody v. change UNIT with base. rewrite i64_div_ok by (clear - B; unfold base in *; lia). mret.
    pose proof (Z.div_mod v base ltac:(unfold base; lia)) as Dm. pose proof (Z.mod_pos_bound v base ltac:(reflexivity)) as Hm.
    rewrite i64_ok by (clear - B Dm Hm; unfold base in *; lia). mret. rewrite i64_ok by (clear - B Dm Hm; unfold base in *; lia). mret.
    replace (v - v / base * base) with (v mod base) by (clear - Dm; lia). rewrite as_i32_id by (clear - Hm; unfold base in *; lia).
    unfold dg. destruct (Z.ltb_spec ms 0) as [N|N]; [reflexivity|]. rewrite get_ok by lia. mret.
    destruct (sub_with_borrow m (zn buf ms) (v mod base) b) as [[s b']|p]; [|reflexivity]. cbn [bind]. rewrite set_ok by lia. reflexivity.
  Qed.

  Lemma mul_sub_two buf i k q : uok buf -> 0 <= i -> i + 1 < zlen buf -> 0 <= q < base ->
    let u := (zn buf (i + 1) * base + zn buf i) * base + dg buf (i - 1) in 0 <= u - q * D < D ->
    exists buf' c b s0, mul_sub m (repeat 0 k ++ [d1; d0]) q buf (i - 1 - Z.of_nat k) 0 0 = Ret (buf', c, b) /\
      0 <= c < base /\ b + (zn buf (i + 1) - c) = 0 /\ wrote buf buf' (i - 1) 2 /\
      0 <= s0 < base /\ zn buf' i * base + s0 = u - q * D /\ (1 <= i -> zn buf' (i - 1) = s0).
  Proof.
    intros U Hi Li Hq u HU. assert (Hd : 0 < d0) by (unfold base in *; lia).
    destruct (digit_step q (dg buf (i - 1)) (zn buf i) (zn buf (i + 1)) (dg_bound _ _ U) (uok_zn _ _ U) (uok_zn _ _ U) Hq HU)
      as (s0 & b0 & s1 & b1 & E0 & E1 & S0 & S1 & Hb0 & T & R & C).
    rewrite mul_sub_zeros by (auto; lia). replace (i - 1 - Z.of_nat k + Z.of_nat k) with (i - 1) by lia.
    rewrite mul_sub_one by (auto; try lia; unfold base; lia). rewrite Z.add_0_r, E0. mret.
    replace (i - 1 + 1) with i by lia.
    set (b' := if i - 1 <? 0 then buf else upd (Z.to_nat (i - 1)) s0 buf).
    assert (W : wrote buf b' (i - 1) 1).
    { subst b'. destruct (Z.ltb_spec (i - 1) 0); [apply wrote_refl, U|apply wrote_upd; try assumption; lia]. }
    pose proof (wrote_zlen _ _ _ _ W) as L'.
    rewrite mul_sub_one; [| apply W | lia | lia | exact Hq | clear - Hq H1; unfold base in *; nia | exact Hb0 ].
    assert (ED : dg b' i = zn buf i). { unfold dg. replace (i <? 0) with false by lia. apply W; lia. }
    rewrite ED, E1. mret. replace (i <? 0) with false by lia. cbn [mul_sub].
    do 4 eexists. split; [reflexivity|]. split; [exact C|]. split; [exact T|].
    pose proof (wrote_upd b' i s1 ltac:(apply W) ltac:(lia) S1) as W1.
    split; [eapply wrote_trans; [exact W|exact W1|lia..]|]. split; [exact S0|].
    rewrite zn_upd_eq by lia. split; [exact R|]. intros I1. rewrite zn_upd_ne by lia. subst b'. replace (i - 1 <? 0) with false by lia.
    rewrite zn_upd_eq by lia. reflexivity.
  Qed.

  (** All quotient units. *)
  Lemma long_div_ok k n : forall buf i r, uok buf -> uok r -> Z.of_nat n <= i + 1 -> i + 1 < zlen buf -> zlen buf <= 100 -> Z.of_nat n <= zlen r ->
    (m = Debug -> d1 = 0) -> zn buf (i + 1) * base + dg buf i < D ->
    exists r', long_div m n (repeat 0 k ++ [d1; d0]) (Z.of_nat k + 1) d0 d1 buf i r = Ret r' /\ wrote r r' 0 (Z.of_nat n) /\
      sg r' 0 (Z.of_nat n) = tops buf (i + 1) (n + 2) / D.
  Proof.
    assert (Hd : 0 < d0) by (unfold base in *; lia). assert (HD : 0 < D) by (unfold D, base in *; lia).
    induction n as [|n IH]; intros buf i r U Ur Hn Li Lb Lr Hm HR.
    - exists r. split; [reflexivity|]. split; [apply wrote_refl, Ur|]. cbn [Nat.add tops]. cbn [Z.of_nat]. rewrite sg_nil by lia.
      replace (i + 1 - 1) with i by lia. rewrite Z.pow_0_r.
      assert (E : dg buf (i + 1) = zn buf (i + 1)) by (unfold dg; replace (i + 1 <? 0) with false by lia; reflexivity).
      rewrite E. change (base ^ Z.of_nat 1) with base. pose proof (dg_bound buf i U). pose proof (uok_zn buf (i + 1) U).
      rewrite Z.div_small; [reflexivity|]. unfold base in *. lia.
    - assert (Hi : 0 <= i) by lia. assert (EI : dg buf i = zn buf i) by (unfold dg; replace (i <? 0) with false by lia; reflexivity).
      rewrite EI in HR. cbn [long_div]. cbv zeta.
      rewrite (guess_ok buf i U Hi Li Lb HR) by (intros X; specialize (Hm X); unfold D in HR; clear - HR Hm; lia). mret.
      set (R := zn buf (i + 1) * base + zn buf i) in *. set (u := R * base + dg buf (i - 1)).
      assert (BR : 0 <= R) by (pose proof (uok_zn buf (i + 1) U); pose proof (uok_zn buf i U); unfold R, base in *; lia).
      pose proof (dg_bound buf (i - 1) U) as Bx.
      assert (Bu : 0 <= u < D * base) by (unfold u; clear - BR Bx HR; unfold base in *; lia).
      assert (Bq : 0 <= u / D < base) by (split; [apply Z.div_pos; lia|apply Z.div_lt_upper_bound; lia]).
      pose proof (Z.div_mod u D ltac:(lia)) as DM. pose proof (Z.mod_pos_bound u D HD) as BM.
      destruct (mul_sub_two buf i k (u / D) U Hi Li Bq) as (buf' & c & b & s0 & E & Hc & T & W & S0 & ER & EL).
      { fold R. fold u. clear - DM BM. lia. }
      fold R in ER. fold u in ER.
      replace (i - (Z.of_nat k + 1)) with (i - 1 - Z.of_nat k) by lia. rewrite E. mret.
      pose proof (wrote_zlen _ _ _ _ W) as L'. rewrite get_ok by lia. mret.
      assert (ET : zn buf' (i + 1) = zn buf (i + 1)) by (apply W; lia). rewrite ET.
      pose proof (uok_zn buf (i + 1) U) as B2. rewrite as_i32_id by (clear - Hc; unfold base in *; lia).
      rewrite i32_ok by (clear - B2 Hc; unfold base in *; lia). mret. rewrite T. rewrite i32_ok by lia. mret. change (0 =? -1) with false. cbv iota.
      rewrite set_ok by lia. mret. mret. rewrite as_i32_id by (clear - Bq; unfold base in *; lia). rewrite set_ok by lia. mret.
      set (q := u / D) in *. set (r1 := upd (Z.to_nat (Z.of_nat n)) q r).
      pose proof (wrote_upd r (Z.of_nat n) q Ur ltac:(lia) Bq) as W0. fold r1 in W0.
      pose proof (wrote_upd buf' (i + 1) 0 ltac:(apply W) ltac:(lia) ltac:(unfold base; lia)) as W1.
      set (buf'' := upd (Z.to_nat (i + 1)) 0 buf') in *.
      assert (F0 : zn buf'' i = zn buf' i) by (apply W1; lia).
      assert (ED : forall T', tops buf (i + 1) (S n + 2) = u * base ^ Z.of_nat n + tops buf (i - 2) n /\
                 (u * base ^ Z.of_nat n + T') / D = q * base ^ Z.of_nat n + (u mod D * base ^ Z.of_nat n + T') / D).
      { intros T'. split.
        - replace (S n + 2)%nat with (3 + n)%nat by lia. rewrite tops_app. cbn [tops].
          replace (i + 1 - 1) with i by lia. replace (i - 1 - 0) with (i - 1) by lia. rewrite EI.
          replace (dg buf (i + 1)) with (zn buf (i + 1)) by (unfold dg; replace (i + 1 <? 0) with false by lia; reflexivity).
          change (Z.of_nat 3) with 3. replace (i + 1 - 3) with (i - 2) by lia. change (base ^ Z.of_nat 2) with (base * base). change (base ^ Z.of_nat 1) with base. change (base ^ Z.of_nat 0) with 1.
          unfold u, R. ring.
        - replace (u * base ^ Z.of_nat n + T') with (q * base ^ Z.of_nat n * D + (u mod D * base ^ Z.of_nat n + T')) by (rewrite DM at 2; ring).
          rewrite Z.div_add_l by lia. reflexivity. }
      assert (ES : forall r', wrote r1 r' 0 (Z.of_nat n) -> wrote r r' 0 (Z.of_nat (S n)) /\ sg r' 0 (Z.of_nat (S n)) = sg r' 0 (Z.of_nat n) + base ^ Z.of_nat n * q).
      { intros r' W2. split; [eapply wrote_trans; [exact W0|exact W2|lia..]|]. replace (Z.of_nat (S n)) with (Z.of_nat n + 1) by lia.
        rewrite sg_snoc by lia. f_equal. f_equal. destruct W2 as (_ & _ & F). rewrite F by lia. unfold r1. replace (0 + Z.of_nat n) with (Z.of_nat n) by lia. apply zn_upd_eq. lia. }
      destruct n as [|n].
      + exists r1. cbn [long_div]. split; [reflexivity|]. destruct (ES r1) as [A1 A2]; [apply wrote_refl, W0|]. split; [exact A1|]. rewrite A2.
        rewrite (proj1 (ED 0)), (proj2 (ED _)). cbn [tops Z.of_nat]. rewrite sg_nil by lia. rewrite Z.pow_0_r. replace (u mod D * 1 + 0) with (u mod D) by ring. rewrite (Z.div_small (u mod D)) by lia. ring.
      + assert (I1 : 1 <= i) by lia. specialize (EL I1).
        assert (ER' : zn buf'' i * base + dg buf'' (i - 1) = u mod D).
        { rewrite F0. unfold dg. replace (i - 1 <? 0) with false by lia. replace (zn buf'' (i - 1)) with (zn buf' (i - 1)) by (symmetry; apply W1; lia).
          rewrite EL, ER. clear - DM. lia. }
        destruct (IH buf'' (i - 1) r1) as (r' & E' & W2 & Es); auto; try apply W1; try apply W0.
        * lia.
        * unfold buf''. rewrite zlen_upd. lia.
        * unfold buf''. rewrite zlen_upd. lia.
        * unfold r1. rewrite zlen_upd. lia.
        * replace (i - 1 + 1) with i by lia. rewrite ER'. lia.
        * exists r'. split; [exact E'|]. destruct (ES r' W2) as [A1 A2]. split; [exact A1|]. rewrite A2, Es.
          rewrite (proj1 (ED 0)), (proj2 (ED _)). rewrite Z.add_comm, (Z.mul_comm (base ^ _) q). f_equal. f_equal.
          replace (S n + 2)%nat with (2 + S n)%nat by lia. rewrite tops_app. replace (i - 1 + 1) with i by lia. cbn [tops].
          rewrite Z.pow_0_r. change (base ^ Z.of_nat 1) with base. rewrite !Z.mul_1_r, !Z.add_0_r.
          replace (dg buf'' i) with (zn buf'' i) by (unfold dg; replace (i <? 0) with false by lia; reflexivity). rewrite ER'. f_equal.
          change (Z.of_nat 2) with 2.
          assert (TE : tops buf'' (i - 2) (S n) = tops buf (i - 2) (S n)).
          { apply tops_ext. intros j J1 J2. unfold dg. destruct (Z.ltb_spec j 0); [reflexivity|].
            transitivity (zn buf' j); [apply W1; lia|apply W; lia]. }
          exact TE.
  Qed.
End guess.
