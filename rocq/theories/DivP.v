(** * Long division by any divisor: the leading units of the quotient.
    Where the tail of a quotient goes wrong, the units above it do not: the
    first guess that is too large is still corrected; it is the remainder left
    behind that is spoilt. *)
From Coq Require Import ZArith List Bool Lia QArith.
From Coq Require Import ZifyBool ZifyNat.
From Verif Require Import Rust Tables Model_Base Model_Cmp Model_Arith Spec Lib Cmp AddSub Sign Mul DivBasics Div Div2 DivG Robust Robust2.
Import ListNotations.
Open Scope Z_scope.
Ltac Zify.zify_post_hook ::= Z.div_mod_to_equations.

(** A guess that is returned in a debug build passed the assertion. *)
Lemma guess_debug_inv buf i d0 d1 q : uok buf -> 0 <= i -> i + 1 < zlen buf -> zlen buf <= 100 -> 0 < d0 < base ->
  guess_qhat Debug buf i d0 d1 = Ret q -> zn buf (i + 1) * base + zn buf i < d0 * base.
Proof.
  intros U Hi Li Lb Hd H. unfold guess_qhat in H. rewrite as_usize_id in H by lia. rewrite usize_ok in H by lia.
  rewrite bind_Ret in H. cbv beta in H. rewrite get_ok in H by lia. rewrite bind_Ret in H. cbv beta in H. replace (i >=? 0) with true in H by lia. rewrite get_ok in H by lia. rewrite bind_Ret in H. cbv beta in H.
  pose proof (uok_zn buf (i + 1) U) as B0. pose proof (uok_zn buf i U) as B1. change UNIT with base in H.
  rewrite i64_ok in H by (clear - B0; unfold base in *; lia). rewrite bind_Ret in H. cbv beta in H.
  set (R := zn buf (i + 1) * base + zn buf i) in *. assert (BR : 0 <= R < base * base) by (unfold R; clear - B0 B1; unfold base in *; lia). clearbody R.
  rewrite i64_ok in H by (clear - BR; unfold base in *; lia). rewrite bind_Ret in H. cbv beta in H.
  rewrite i64_div_ok in H by (clear - BR Hd; unfold base in *; lia). rewrite bind_Ret in H. cbv beta in H.
  apply bind_inv in H. destruct H as (x & _ & H). apply bind_inv in H. destruct H as (y & _ & H). apply bind_inv in H. destruct H as (t & E & _).
  cbn in E. destruct (Z.ltb_spec (R / d0) base) as [X|X]; [|discriminate E].
  pose proof (Z.div_mod R d0 ltac:(clear - Hd; lia)) as DM. pose proof (Z.mod_pos_bound R d0 (proj1 Hd)) as BM. clear - X DM BM Hd. set (k := R / d0) in *. clearbody k.
  assert (d0 * k <= d0 * (base - 1)) by (apply Z.mul_le_mono_nonneg_l; lia). lia.
Qed.

Lemma build_dec (m : build) : m = Debug \/ m = Release. Proof. destruct m; auto. Qed.

Section prefix.
  Variables (m : build) (b2 : list Z) (rnz d0 d1 z p Bn : Z).
  Hypothesis U2 : uok b2.
  Hypothesis L2 : zlen b2 = rnz + 1.
  Hypothesis R1 : 1 <= rnz <= 8.
  Hypothesis EB : sg b2 0 (rnz + 1) = Bn.
  Hypothesis E0 : zn b2 rnz = d0.
  Hypothesis E1 : zn b2 (rnz - 1) = d1.
  Hypothesis H0 : base <= 2 * d0.
  Hypothesis Hz : 0 <= z.
  Hypothesis Hzp : 0 <= z + p.
  Hypothesis Hp : 0 <= p + rnz.
  Let D2 := d0 * base + d1.
  Let D (j : Z) := dshift Bn z p j.
  Lemma pR1 : 1 <= rnz. Proof. apply R1. Qed.
  Lemma pH0 : base <= 4 * d0. Proof. pose proof H0 as X. clear - X. unfold base in *. lia. Qed.
  Lemma pd0 : 0 < d0 < base. Proof. eapply d0_bound; eauto using pH0. Qed.
  Lemma pd1 : 0 <= d1 < base. Proof. eapply d1_bound; eauto. Qed.
  Lemma pD2 : base * base <= 4 * D2 /\ D2 < base * base. Proof. eapply D2_bound; eauto using pH0. Qed.
  Lemma pD_pos j : 0 <= j -> 0 < D j. Proof. eapply D_pos; eauto using pH0, pR1. Qed.
  Lemma pD_succ j : 0 <= j -> D (j + 1) = D j * base. Proof. eapply D_succ; eauto. Qed.
  Lemma pD_top j : 0 <= j -> let i := p + rnz + j in D2 * base ^ (z + i - 1) <= D j < (D2 + 1) * base ^ (z + i - 1). Proof. eapply D_top; eauto using pR1. Qed.
  Lemma pD_mod j k W : 0 <= j <= k -> W mod D k mod D j = W mod D j. Proof. eapply D_mod; eauto using pH0, pR1. Qed.
  Lemma pD_div j : 1 <= j -> (base ^ z | D 1) -> (base ^ z | D j). Proof. eapply D_div; eauto. Qed.

  (** [J] is the lowest unit of the prefix. *)
  Lemma long_div_prefix (ex : bool) J : 0 <= J -> (ex = true -> (base ^ z | D 1)) -> forall n buf r W c r', let i := p + rnz + (Z.of_nat n - 1) in let V := sg buf 0 (i + 2) in
    J < Z.of_nat n -> uok buf -> uok r -> i + 1 < 18 -> zlen buf = 18 -> zlen r = 9 -> Z.of_nat n <= 9 ->
    0 <= W < D (Z.of_nat n) -> 0 <= W - V * base ^ z <= c * base ^ z -> 0 <= c -> c + Z.of_nat n <= 9 ->
    (ex = true -> c = 0) -> (ex = false -> forall j, J <= j < Z.of_nat n -> (c = 0 /\ j = Z.of_nat n - 1) \/ 36 * D j <= base * (W mod D j)) ->
    (forall j, J < j < Z.of_nat n -> 10 * D j <= base * (D j - W mod D j)) -> (m = Debug \/ W mod D (J + 1) / D J <= base - 2) ->
    long_div m n b2 rnz d0 d1 buf i r = Ret r' ->
    ubelow (qb m) r' /\ zlen r' = 9 /\ (forall k, Z.of_nat n <= k -> zn r' k = zn r k) /\ (forall k, J <= k < Z.of_nat n -> 0 <= zn r' k < base) /\ sg r' J (Z.of_nat n - J) = W / D J.
  Proof.
    intros HJ HE. induction n as [|n IH]; intros buf r W c r' i V Jn U Ur Li Lb Lr Hn9 HW HV Hc Hcn HX HL HU HM HR'; [clear - Jn HJ; lia|].
    replace (Z.of_nat (S n)) with (Z.of_nat n + 1) in * by (clear; lia). assert (EJ : exists j, j = Z.of_nat n) by eauto. destruct EJ as (j & EJ). rewrite <- EJ in *. assert (J0 : 0 <= j) by (clear - EJ; lia).
    assert (Ei : i = p + rnz + j) by (unfold i; clear - EJ; lia). clearbody i. assert (Hi : 0 <= i) by (clear - Ei Hp J0; lia). assert (Hzi : 1 <= z + i) by (pose proof Hzp; pose proof R1; clear - Ei H J0 H1; lia).
    pose proof (pD_pos j J0) as PD. pose proof (pD_succ j J0) as ES. rewrite ES in HW.
    pose proof (Z.div_mod W (D j) ltac:(clear - PD; lia)) as DM. pose proof (Z.mod_pos_bound W (D j) PD) as BM.
    assert (Bq : 0 <= W / D j < base) by (split; [apply Z.div_pos; [apply HW|exact PD]|apply Z.div_lt_upper_bound; [exact PD|apply HW]]).
    assert (HLj : c = 0 \/ 36 * D j <= base * (W mod D j)).
    { destruct ex; [left; apply HX; reflexivity|]. destruct (HL eq_refl j ltac:(clear - Jn; lia)) as [[? _]|?]; auto. }
    assert (EQ : exists q, q = W / D j) by eauto. destruct EQ as (q & EQ).
    assert (ERr : exists r0, r0 = W mod D j) by eauto. destruct ERr as (r0 & ERr).
    pose proof (window3 buf i z U Hi Hz Hzi) as W3. cbv zeta in W3. fold V in W3. set (R3 := tops buf (i + 1) 3) in *.
    pose proof (pD_top j J0) as DT. cbv zeta in DT. rewrite <- Ei in DT. set (P := base ^ (z + i - 1)) in *.
    assert (PP : 0 < P) by (apply pow_base_pos; clear - Hzi; lia).
    assert (BZ : 0 <= base ^ z <= base * P).
    { split; [apply Z.lt_le_incl, pow_base_pos, Hz|]. unfold P. rewrite <- base_S by (clear - Hzi; lia). apply Z.pow_le_mono_r; [reflexivity|clear - Hi; lia]. }
    assert (C8 : 0 <= c <= 8) by (clear - Hc Hcn J0; lia).
    pose proof pd0 as Bd0. pose proof pd1 as Bd1. pose proof pD2 as [BD2 BD2'].
    assert (E3 : R3 = (zn buf (i + 1) * base + zn buf i) * base + dg buf (i - 1)) by (apply tops3; [exact U|exact Hi]).
    assert (HRd : m = Debug -> zn buf (i + 1) * base + zn buf i < d0 * base).
    { intros Hm. cbn [long_div] in HR'. cbv zeta in HR'. rewrite Hm in HR'. apply bind_inv in HR'. destruct HR' as (qh & Eg & _).
      eapply guess_debug_inv; [exact U|exact Hi|clear - Li Lb; lia|clear - Lb; lia|exact Bd0|exact Eg]. }
    set (R := zn buf (i + 1) * base + zn buf i) in *. pose proof (dg_bound buf (i - 1) U) as Bx.
    assert (DM' : W = q * D j + r0) by (rewrite EQ, ERr; clear - DM; lia). rewrite <- EQ in Bq. rewrite <- ERr in BM, HLj.
    assert (Li2 : p + rnz + j + 1 < zlen buf) by (rewrite <- Ei, Lb; exact Li). assert (EV0 : V = sg buf 0 (p + rnz + j + 2)) by (unfold V; rewrite <- Ei; reflexivity).
    pose proof (uok_zn buf (i + 1) U) as B2.
    destruct (Z.eq_dec j J) as [EqJ|NJ].
    - (* the last unit of the prefix *)
      destruct (guess_near D2 P (D j) W (V * base ^ z) R3 q r0 c (base ^ z) PP BD2 DT W3 HV BZ C8 DM' BM ltac:(clear - Bq; lia) HLj) as ((G1 & G2) & VQ).
      assert (HR : R < D2).
      { destruct (build_dec m) as [Hm|Hm]; [specialize (HRd Hm); clear - HRd Bd1; unfold D2; lia|].
        assert (Q2 : q <= base - 2). { destruct HM as [HM|HM]; [congruence|]. rewrite <- EqJ, ES, Z.mod_small in HM by exact HW. rewrite EQ. exact HM. }
        assert (X : R * base < D2 * base); [|apply Z.mul_lt_mono_pos_r in X; [exact X|reflexivity]].
        apply Z.le_lt_trans with R3; [clear - E3 Bx; lia|]. apply Z.lt_le_trans with ((q + 2) * D2); [exact G2|]. rewrite (Z.mul_comm D2). apply Z.mul_le_mono_nonneg_r; [clear - BD2; unfold base in *; lia|clear - Q2; lia]. }
      assert (G3 : R3 < base * D2). { rewrite E3. clear - HR Bx. unfold base in *. lia. }
      cbn [long_div] in HR'. cbv zeta in HR'. rewrite (guess_ok m d0 d1 pH0 (proj2 Bd0) Bd1 buf i U Hi ltac:(clear - Li Lb; lia) ltac:(clear - Lb; lia) HR HRd) in HR'. rewrite bind_Ret in HR'. cbv beta in HR'. fold R in HR'. rewrite <- E3 in HR'. fold D2 in HR'.
      assert (STEP : exists buf2, uok buf2 /\ zlen buf2 = 18 /\ long_div m n b2 rnz d0 d1 buf2 (i - 1) (upd (Z.to_nat j) q r) = Ret r').
      { destruct (Z.lt_ge_cases R3 ((q + 1) * D2)) as [G|G].
        - assert (EG : R3 / D2 = q). { symmetry. apply (Z.div_unique _ _ q (R3 - D2 * q)); [left; clear - G1 G; lia|clear; lia]. }
          rewrite EG in HR'.
          destruct (long_step m b2 rnz d0 d1 z p Bn U2 L2 pR1 EB E0 E1 pH0 Hz Hzp Hp buf j V W q r0 c J0 U Li2 EV0 HV DM' BM Bq VQ) as (buf' & cy & b & E & Wr & Hcy & T & _).
          rewrite <- Ei in *. rewrite E in HR'. rewrite bind_Ret in HR'. cbv beta iota in HR'. clear E.
          pose proof (wrote_zlen _ _ _ _ Wr) as L'. rewrite get_ok in HR' by (clear - L' Lb Li Hi; lia). rewrite bind_Ret in HR'. cbv beta iota in HR'.
          assert (ET : zn buf' (i + 1) = zn buf (i + 1)) by (apply Wr; clear - Hi; lia). rewrite ET in HR'.
          rewrite as_i32_id in HR' by (clear - Hcy; unfold base in *; lia).
          rewrite i32_ok in HR' by (clear - B2 Hcy; unfold base in *; lia). rewrite bind_Ret in HR'. cbv beta iota in HR'. rewrite T in HR'. rewrite i32_ok in HR' by (clear; lia). rewrite bind_Ret in HR'. change (0 =? -1) with false in HR'. cbv beta iota in HR'.
          rewrite set_ok in HR' by (clear - L' Lb Li Hi; lia). rewrite !bind_Ret in HR'. cbv beta iota in HR'. rewrite as_i32_id in HR' by (clear - Bq; unfold base in *; lia). rewrite <- EJ in HR'. rewrite set_ok in HR' by (clear - Lr J0 Hn9; lia). rewrite bind_Ret in HR'. cbv beta iota in HR'.
          exists (upd (Z.to_nat (i + 1)) 0 buf'). split; [apply uok_upd; [apply Wr|unfold base; clear; lia]|]. split; [rewrite zlen_upd; clear - L' Lb; lia|exact HR'].
        - assert (EG : R3 / D2 = q + 1). { symmetry. apply (Z.div_unique _ _ (q + 1) (R3 - D2 * (q + 1))); [left; clear - G2 G; lia|clear; lia]. }
          rewrite EG in HR'. assert (Bq1 : q + 1 < base).
          { assert (X : (q + 1) * D2 < base * D2) by (clear - G G3; lia). apply Z.mul_lt_mono_pos_r in X; [exact X|clear - BD2; unfold base in *; lia]. }
          destruct (over_step m b2 rnz d0 d1 z p Bn U2 L2 pR1 EB E0 E1 pH0 Hz Hzp Hp buf j V W q r0 c J0 ltac:(clear - Lb Hn9 R1; lia) U Li2 EV0 HV DM' BM (proj1 Bq) Bq1 VQ) as (buf' & cy & b & buf'' & b' & E & Wr & Hcy & T & EN).
          rewrite <- Ei in *. rewrite E in HR'. rewrite bind_Ret in HR'. cbv beta iota in HR'. clear E.
          pose proof (wrote_zlen _ _ _ _ Wr) as L'. rewrite get_ok in HR' by (clear - L' Lb Li Hi; lia). rewrite bind_Ret in HR'. cbv beta iota in HR'.
          assert (ET : zn buf' (i + 1) = zn buf (i + 1)) by (apply Wr; clear - Hi; lia). rewrite ET in HR'.
          rewrite as_i32_id in HR' by (clear - Hcy; unfold base in *; lia).
          rewrite i32_ok in HR' by (clear - B2 Hcy; unfold base in *; lia). rewrite bind_Ret in HR'. cbv beta iota in HR'. rewrite T in HR'. rewrite i32_ok in HR' by (clear; lia). rewrite bind_Ret in HR'. change (-1 =? -1) with true in HR'. cbv beta iota in HR'.
          rewrite i64_ok in HR' by (clear - Bq; unfold base in *; lia). rewrite bind_Ret in HR'. cbv beta iota in HR'. rewrite <- EJ in HR'.
          destruct (negate_any m (Z.to_nat rnz) buf' j 0 ltac:(apply Wr) J0 ltac:(clear - L' Lb Hn9 R1; lia) ltac:(clear; lia)) as (buf3 & b3 & EN' & U3 & L3 & _).
          rewrite EN' in HR'. repeat (rewrite bind_Ret in HR'; cbv beta iota in HR'). replace (q + 1 - 1) with q in HR' by (clear; lia).
          rewrite as_i32_id in HR' by (clear - Bq; unfold base in *; lia). rewrite set_ok in HR' by (clear - Lr J0 Hn9; lia). rewrite bind_Ret in HR'. cbv beta iota in HR'.
          exists buf3. split; [exact U3|]. split; [clear - L3 L' Lb; lia|exact HR']. }
      destruct STEP as (buf2 & U3 & L3 & EQr). clear HR'.
      pose proof (wrote_upd r j q Ur ltac:(clear - Lr J0 Hn9; lia) Bq) as W0.
      destruct (long_div_any m b2 rnz d0 d1 U2 L2 ltac:(clear - R1; lia) H0 (proj2 Bd0) Bd1 n buf2 (i - 1) (upd (Z.to_nat j) q r) U3 L3) as [(r2 & E & Ub & Lr2 & K)|(p0 & E & _)].
      + apply ubelow_uok, W0.
      + rewrite zlen_upd. exact Lr.
      + clear - EJ Hn9. lia.
      + clear - Hi Li. lia.
      + rewrite E in EQr. apply (f_equal (fun o => match o with Ret x => x | _ => r' end)) in EQr. cbn in EQr. subst r2.
        assert (ZJ : zn r' j = q) by (rewrite K by (clear - EJ; lia); apply zn_upd_eq; clear - Lr J0 Hn9; lia).
        split; [exact Ub|]. split; [exact Lr2|]. split; [intros k Hk; rewrite K by (clear - Hk EJ; lia); apply zn_upd_ne; clear - Hk J0 Lr Hn9; lia|].
        split; [intros k Hk; replace k with j by (clear - Hk EqJ; lia); rewrite ZJ; exact Bq|].
        rewrite <- EqJ. replace (j + 1 - j) with 1 by (clear; lia). rewrite sg_1, ZJ. exact EQ.
      + rewrite E in EQr. discriminate.
    - (* above it *)
      assert (JJ : J < j) by (clear - Jn NJ; lia).
      pose proof (HU j ltac:(clear - JJ; lia)) as HUj. rewrite <- ERr in HUj.
      destruct (guess_exact D2 P (D j) W (V * base ^ z) R3 q r0 c (base ^ z) PP BD2 DT W3 HV BZ C8 DM' BM ltac:(clear - Bq; lia) HUj HLj) as ((G1 & G2) & VQ).
      assert (HR : R < D2).
      { assert (X : R * base < D2 * base); [|apply Z.mul_lt_mono_pos_r in X; [exact X|reflexivity]].
        apply Z.le_lt_trans with R3; [clear - E3 Bx; lia|]. apply Z.lt_le_trans with ((q + 1) * D2); [exact G2|]. rewrite (Z.mul_comm D2). apply Z.mul_le_mono_nonneg_r; [clear - BD2; unfold base in *; lia|clear - Bq; lia]. }
      cbn [long_div] in HR'. cbv zeta in HR'. rewrite (guess_ok m d0 d1 pH0 (proj2 Bd0) Bd1 buf i U Hi ltac:(clear - Li Lb; lia) ltac:(clear - Lb; lia) HR HRd) in HR'. rewrite bind_Ret in HR'. cbv beta in HR'. fold R in HR'. rewrite <- E3 in HR'. fold D2 in HR'.
      assert (EG : R3 / D2 = q). { symmetry. apply (Z.div_unique _ _ q (R3 - D2 * q)); [left; clear - G1 G2; lia|clear; lia]. }
      rewrite EG in HR'.
      destruct (long_step m b2 rnz d0 d1 z p Bn U2 L2 pR1 EB E0 E1 pH0 Hz Hzp Hp buf j V W q r0 c J0 U Li2 EV0 HV DM' BM Bq VQ) as (buf' & cy & b & E & Wr & Hcy & T & HV' & HEx).
      rewrite <- Ei in *. rewrite E in HR'. rewrite bind_Ret in HR'. cbv beta iota in HR'. clear E.
      pose proof (wrote_zlen _ _ _ _ Wr) as L'. rewrite get_ok in HR' by (clear - L' Lb Li Hi; lia). rewrite bind_Ret in HR'. cbv beta iota in HR'.
      assert (ET : zn buf' (i + 1) = zn buf (i + 1)) by (apply Wr; clear - Hi; lia). rewrite ET in HR'.
      rewrite as_i32_id in HR' by (clear - Hcy; unfold base in *; lia).
      rewrite i32_ok in HR' by (clear - B2 Hcy; unfold base in *; lia). rewrite bind_Ret in HR'. cbv beta iota in HR'. rewrite T in HR'. rewrite i32_ok in HR' by (clear; lia). rewrite bind_Ret in HR'. change (0 =? -1) with false in HR'. cbv beta iota in HR'.
      rewrite set_ok in HR' by (clear - L' Lb Li Hi; lia). rewrite !bind_Ret in HR'. cbv beta iota in HR'. rewrite as_i32_id in HR' by (clear - Bq; unfold base in *; lia). rewrite <- EJ in HR'. rewrite set_ok in HR' by (clear - Lr J0 Hn9; lia). rewrite bind_Ret in HR'. cbv beta iota in HR'.
      pose proof (wrote_upd r j q Ur ltac:(clear - Lr J0 Hn9; lia) Bq) as W0. set (r1 := upd (Z.to_nat j) q r) in *.
      pose proof (wrote_upd buf' (i + 1) 0 ltac:(apply Wr) ltac:(clear - L' Lb Li Hi; lia) ltac:(unfold base; clear; lia)) as W1.
      set (buf'' := upd (Z.to_nat (i + 1)) 0 buf') in *. pose proof (wrote_zlen _ _ _ _ W1) as L''. pose proof (wrote_zlen _ _ _ _ W0) as L0.
      assert (EV'' : sg buf'' 0 (i + 1) = sg buf' 0 (i + 1)) by (apply (wrote_sg _ _ _ _ 0 (i + 1) W1); clear; lia).
      destruct (IH buf'' r1 r0 (if ex then 0 else c + 1) r') as (Ub & Lr2 & K & KB & Es).
      + exact JJ.
      + apply W1.
      + apply W0.
      + clear - Ei Li. lia.
      + clear - L' L'' Lb. lia.
      + clear - Lr L0. lia.
      + clear - Hn9. lia.
      + exact BM.
      + replace (p + rnz + (j - 1) + 2) with (i + 1) by (clear - Ei; lia). rewrite EV''. destruct ex; [|exact HV'].
        specialize (HX eq_refl). rewrite <- HEx; [clear; lia| |apply pD_div; [clear - JJ HJ; lia|apply HE; reflexivity]]. rewrite HX in HV. clear - HV. lia.
      + destruct ex; clear - Hc; lia.
      + destruct ex; clear - Hcn Hc J0; lia.
      + intros ->. reflexivity.
      + intros X1 k Hk. rewrite X1 in *. right. rewrite ERr. rewrite pD_mod by (clear - Hk HJ; lia).
        destruct (HL eq_refl k ltac:(clear - Hk; lia)) as [[_ X]|X]; [clear - X Hk; lia|exact X].
      + intros k Hk. rewrite ERr. rewrite pD_mod by (clear - Hk HJ; lia). apply HU. clear - Hk. lia.
      + destruct HM as [HM|HM]; [left; exact HM|right]. rewrite ERr. rewrite pD_mod by (clear - JJ HJ; lia). exact HM.
      + replace (p + rnz + (j - 1)) with (i - 1) by (clear - Ei; lia). exact HR'.
      + assert (ZJ : zn r' j = q) by (rewrite K by (clear; lia); apply zn_upd_eq; clear - Lr J0 Hn9; lia).
        split; [exact Ub|]. split; [exact Lr2|]. split; [intros k Hk; rewrite K by (clear - Hk; lia); apply zn_upd_ne; clear - Hk J0 Lr Hn9; lia|].
        split. { intros k Hk. destruct (Z.eq_dec k j) as [->|Nk]; [rewrite ZJ; exact Bq|apply KB; clear - Hk Nk; lia]. }
        replace (j + 1 - J) with (j - J + 1) by (clear; lia). rewrite sg_snoc by (clear - JJ; lia). rewrite Es. replace (J + (j - J)) with j by (clear; lia). rewrite ZJ, DM'.
        assert (ED : D j = base ^ (j - J) * D J). { unfold D, dshift. replace (z + p + j) with (z + p + J + (j - J)) by (clear; lia). rewrite base_pow_split by (pose proof Hzp; clear - JJ HJ H; lia). ring. }
        rewrite ED. replace (q * (base ^ (j - J) * D J)) with (base ^ (j - J) * q * D J) by ring. rewrite Z.div_add_l by (pose proof (pD_pos J HJ) as X; clear - X; lia). apply Z.add_comm.
  Qed.
End prefix.
