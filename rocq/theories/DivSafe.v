(** * Long division where no units are cut off: a wrong guess ends a debug build. *)
From Coq Require Import ZArith List Bool Lia QArith.
From Coq Require Import ZifyBool ZifyNat.
From Verif Require Import Rust Tables Model_Base Model_Cmp Model_Arith Spec Lib Cmp AddSub Sign Mul DivBasics Div Div2 Div3 DivG Robust Robust2 DivP DivLast.
Import ListNotations.
Open Scope Z_scope.
Ltac Zify.zify_post_hook ::= Z.div_mod_to_equations.

Lemma top_div l n k : uok l -> 0 <= k <= n -> sg l 0 n / base ^ k = sg l k (n - k).
Proof.
  intros U K. replace n with (k + (n - k)) at 1 by lia. rewrite sg_app by lia. rewrite Z.add_0_l. pose proof (pow_base_pos k ltac:(lia)) as P. pose proof (sg_bound l 0 k U ltac:(lia)) as B.
  rewrite (Z.mul_comm (base ^ k)), Z.div_add by lia. rewrite Z.div_small by exact B. reflexivity.
Qed.

Section safe.
  Variables (m : build) (b2 : list Z) (rnz d0 d1 p Bn : Z).
  Hypothesis U2 : uok b2.
  Hypothesis L2 : zlen b2 = rnz + 1.
  Hypothesis R1 : 1 <= rnz <= 8.
  Hypothesis EB : sg b2 0 (rnz + 1) = Bn.
  Hypothesis E0 : zn b2 rnz = d0.
  Hypothesis E1 : zn b2 (rnz - 1) = d1.
  Hypothesis H0 : base <= 2 * d0.
  Hypothesis Hp : 0 <= p.
  Let D2 := d0 * base + d1.
  Let D (j : Z) := dshift Bn 0 p j.
  Let Hp0 : 0 <= 0 + p. Proof. exact Hp. Qed.
  Let Hpr : 0 <= p + rnz. Proof. apply Z.add_nonneg_nonneg; [exact Hp|]. destruct R1. apply Z.le_trans with 1; [discriminate|assumption]. Qed.
  Lemma sR1 : 1 <= rnz. Proof. apply R1. Qed.
  Lemma sH0 : base <= 4 * d0. Proof. clear - H0. unfold base in *. lia. Qed.
  Lemma sd0 : 0 < d0 < base. Proof. eapply d0_bound; eauto using sH0. Qed.
  Lemma sd1 : 0 <= d1 < base. Proof. eapply d1_bound; eauto. Qed.
  Lemma sD2 : base * base <= 4 * D2 /\ D2 < base * base. Proof. eapply D2_bound; eauto using sH0. Qed.
  Lemma sD_pos j : 0 <= j -> 0 < D j. Proof. eapply D_pos; eauto using sH0, sR1. Qed.
  Lemma sD_succ j : 0 <= j -> D (j + 1) = D j * base. Proof. eapply D_succ; eauto. Qed.
  Lemma sD_top j : 0 <= j -> let i := p + rnz + j in D2 * base ^ (i - 1) <= D j < (D2 + 1) * base ^ (i - 1).
  Proof. intros J i. exact (D_top b2 rnz d0 d1 0 p Bn U2 sR1 EB E0 E1 Hp0 j J). Qed.
  Lemma sD_mod j k W : 0 <= j <= k -> W mod D k mod D j = W mod D j. Proof. eapply D_mod; eauto using sH0, sR1. Qed.

  (** The top unit of what a guess too large by one leaves is base - 1. *)
  Lemma over_top buf j W q r0 R3 buf' cy b : let i := p + rnz + j in 0 <= j -> uok buf -> i + 1 < zlen buf -> W = sg buf 0 (i + 2) -> W = q * D j + r0 -> 0 <= r0 < D j ->
    0 <= q -> q + 1 < base -> R3 * base ^ (i - 1) <= W -> (q + 1) * D2 <= R3 -> mul_sub m b2 (q + 1) buf (i - rnz) 0 0 = Ret (buf', cy, b) -> b + (zn buf (i + 1) - cy) = -1 ->
    zn buf' i = base - 1.
  Proof.
    intros i J U Li EV EW Hr Hq0 Hq1 HR G E T. assert (Hi : 1 <= i) by (unfold i; clear - J Hp R1; lia).
    destruct (mul_sub_window m b2 (q + 1) buf i rnz ltac:(clear - Hq0 Hq1; lia) U U2 L2 ltac:(clear - R1; lia) ltac:(clear - Hi; lia) Li) as (x1 & x2 & x3 & lo & E' & Wr & Hc & Hb & HL & ES). cbv zeta in *.
    rewrite E in E'. apply Ret_inj in E'. assert (x1 = buf' /\ x2 = cy /\ x3 = b) as (-> & -> & ->) by (split; [|split]; congruence). clear E'.
    replace (Z.max 0 (rnz - i)) with 0 in * by (unfold i; clear - J Hp; lia). rewrite Z.pow_0_r in *. rewrite EB, <- EV, T in ES.
    replace (Z.max 0 (i - rnz)) with (0 + p + j) in ES by (unfold i; clear - J Hp; lia).
    assert (ED : D j = Bn * base ^ (0 + p + j)) by reflexivity. rewrite <- Z.mul_assoc, <- ED in ES.
    pose proof (sD_top j J) as [_ DT]. cbv zeta in DT. fold i in DT.
    assert (PI : base ^ i = base * base ^ (i - 1)) by (rewrite <- base_S by (clear - Hi; lia); f_equal; clear; lia).
    assert (PI1 : base ^ (0 + i + 1) = base * base ^ i) by (replace (0 + i + 1) with (i + 1) by (clear; lia); apply base_S; clear - Hi; lia).
    pose proof (pow_base_pos (i - 1) ltac:(clear - Hi; lia)) as PP. set (P := base ^ (i - 1)) in *.
    pose proof (top_bounds buf' i ltac:(apply Wr) ltac:(clear - Hi; lia)) as TB. pose proof (uok_zn buf' i ltac:(apply Wr)) as Bz.
    assert (X : (q + 1) * D j <= W + base * P).
    { apply Z.le_trans with ((q + 1) * ((D2 + 1) * P)); [apply Z.mul_le_mono_nonneg_l; [clear - Hq0; lia|clear - DT; lia]|].
      apply Z.le_trans with (R3 * P + base * P); [|clear - HR; lia]. replace ((q + 1) * ((D2 + 1) * P)) with ((q + 1) * D2 * P + (q + 1) * P) by ring.
      apply Z.add_le_mono; apply Z.mul_le_mono_nonneg_r; try (clear - PP; lia); [exact G|clear - Hq1; lia]. }
    assert (S0 : sg buf' 0 (i + 1) = W - (q + 1) * D j + base * base ^ i) by (rewrite PI1 in ES; clear - ES HL; lia).
    rewrite S0 in TB. rewrite PI in *. set (S := base * P) in *. assert (SP : 0 < S) by (unfold S; apply Z.mul_pos_pos; [reflexivity|exact PP]).
    set (Y := (q + 1) * D j) in *. clearbody Y S. set (z := zn buf' i) in *. clearbody z. clear - TB X SP Bz.
    assert (S * (base - 1) < S * (z + 1)) by (rewrite Z.mul_sub_distr_l; lia). apply Z.mul_lt_mono_pos_l in H; [|exact SP]. lia.
  Qed.

  (** The guesses that matter. *)
  Definition good_guess (W : Z) (j : Z) : Prop := let i := p + rnz + j in let w := W mod D (j + 1) in
    (m = Debug -> w / base ^ i < d0 * base) /\ (1 <= j -> w / base ^ (i - 1) / D2 = w / D j).

  Lemma long_div_safe n : forall buf r W, let i := p + rnz + (Z.of_nat n - 1) in
    uok buf -> uok r -> i + 1 < 18 -> zlen buf = 18 -> zlen r = 9 -> Z.of_nat n <= 9 ->
    0 <= W < D (Z.of_nat n) -> W = sg buf 0 (i + 2) ->
    ((forall j, 0 <= j < Z.of_nat n -> good_guess W j) ->
       exists r', long_div m n b2 rnz d0 d1 buf i r = Ret r' /\ wrote r r' 0 (Z.of_nat n) /\ sg r' 0 (Z.of_nat n) = W / D 0) /\
    (m = Debug -> forall r', long_div m n b2 rnz d0 d1 buf i r = Ret r' -> forall j, 0 <= j < Z.of_nat n -> good_guess W j).
  Proof.
    induction n as [|n IH]; intros buf r W i U Ur Li Lb Lr Hn9 HW EV.
    { change (Z.of_nat 0) with 0 in *. split; [|intros _ r' _ j Hj; clear - Hj; lia]. intros _. exists r. split; [reflexivity|]. split; [apply wrote_refl, Ur|].
      rewrite sg_nil by (clear; lia). symmetry. apply Z.div_small. exact HW. }
    replace (Z.of_nat (S n)) with (Z.of_nat n + 1) in * by (clear; lia). assert (EJ : exists j, j = Z.of_nat n) by eauto. destruct EJ as (j & EJ). rewrite <- EJ in *. assert (J0 : 0 <= j) by (clear - EJ; lia).
    assert (Ei : i = p + rnz + j) by (unfold i; clear - EJ; lia). clearbody i. assert (Hi : 1 <= i) by (clear - Ei Hp J0 R1; lia).
    pose proof (sD_pos j J0) as PD. pose proof (sD_succ j J0) as ES.
    assert (WM : W mod D (j + 1) = W) by (apply Z.mod_small; exact HW). rewrite ES in HW.
    pose proof (Z.div_mod W (D j) ltac:(clear - PD; lia)) as DM. pose proof (Z.mod_pos_bound W (D j) PD) as BM.
    assert (Bq : 0 <= W / D j < base) by (split; [apply Z.div_pos; [apply HW|exact PD]|apply Z.div_lt_upper_bound; [exact PD|apply HW]]).
    assert (EQ : exists q, q = W / D j) by eauto. destruct EQ as (q & EQ).
    assert (ERr : exists r0, r0 = W mod D j) by eauto. destruct ERr as (r0 & ERr).
    assert (W3 : let R3 := tops buf (i + 1) 3 in R3 * base ^ (i - 1) <= W < (R3 + 1) * base ^ (i - 1)).
    { pose proof (window3 buf i 0 U ltac:(clear - Hi; lia) ltac:(clear; lia) ltac:(clear - Hi; lia)) as X. cbv zeta in X. rewrite Z.pow_0_r, Z.mul_1_r, Z.add_0_l, <- EV in X. exact X. }
    cbv zeta in W3. set (R3 := tops buf (i + 1) 3) in *.
    pose proof (sD_top j J0) as DT. cbv zeta in DT. rewrite <- Ei in DT.
    assert (PP : 0 < base ^ (i - 1)) by (apply pow_base_pos; clear - Hi; lia).
    assert (W3' : W / base ^ (i - 1) = R3). { symmetry. apply Z.div_unique with (W - R3 * base ^ (i - 1)); [left; clear - W3; lia|clear; lia]. }
    pose proof sd0 as Bd0. pose proof sd1 as Bd1. pose proof sD2 as [BD2 BD2'].
    assert (E3 : R3 = (zn buf (i + 1) * base + zn buf i) * base + dg buf (i - 1)) by (apply tops3; [exact U|clear - Hi; lia]).
    set (R := zn buf (i + 1) * base + zn buf i) in *. pose proof (dg_bound buf (i - 1) U) as Bx.
    assert (WR : W / base ^ i = R).
    { rewrite EV, top_div by (exact U || (clear - Hi; lia)). replace (i + 2 - i) with (1 + 1) by (clear; lia). rewrite sg_cons, sg_1 by (clear; lia). unfold R. ring. }
    assert (GE : good_guess W j <-> (m = Debug -> R < d0 * base) /\ (1 <= j -> R3 / D2 = q)).
    { unfold good_guess. cbv zeta. rewrite WM, <- Ei, WR, W3', <- EQ. reflexivity. }
    assert (DLT : W < base * ((D2 + 1) * base ^ (i - 1))) by (clear - HW DT; unfold base in *; lia).
    assert (RLE : R <= D2).
    { assert (X : R * base * base ^ (i - 1) < base * (D2 + 1) * base ^ (i - 1)).
      { apply Z.le_lt_trans with W; [|rewrite <- Z.mul_assoc; exact DLT]. apply Z.le_trans with (R3 * base ^ (i - 1)); [|apply W3]. apply Z.mul_le_mono_nonneg_r; [clear - PP; lia|rewrite E3; clear - Bx; lia]. }
      apply Z.mul_lt_mono_pos_r in X; [|exact PP]. clear - X. unfold base in *. lia. }
    assert (DM' : W = q * D j + r0) by (rewrite EQ, ERr; clear - DM; lia). rewrite <- EQ in Bq. rewrite <- ERr in BM.
    assert (Li2 : p + rnz + j + 1 < zlen buf) by (rewrite <- Ei, Lb; exact Li). 
    pose proof (uok_zn buf (i + 1) U) as B2.
    assert (BZ : 0 <= base ^ 0 <= base * base ^ (i - 1)) by (split; [discriminate|]; rewrite Z.pow_0_r; clear - PP; unfold base in *; lia).
    assert (HV : 0 <= W - W * base ^ 0 <= 0 * base ^ 0) by (clear; rewrite Z.pow_0_r; lia).
    destruct (guess_near D2 (base ^ (i - 1)) (D j) W (W * base ^ 0) R3 q r0 0 (base ^ 0) PP BD2 DT ltac:(rewrite Z.pow_0_r, Z.mul_1_r; exact W3) HV BZ ltac:(clear; lia) DM' BM ltac:(clear - Bq; lia) ltac:(left; reflexivity)) as ((G1 & G2) & VQ).
    (* one step, given that the guess is returned *)
    assert (STEP : R < D2 -> (m = Debug -> R < d0 * base) -> exists buf2, uok buf2 /\ zlen buf2 = 18 /\
      long_div m (S n) b2 rnz d0 d1 buf i r = long_div m n b2 rnz d0 d1 buf2 (i - 1) (upd (Z.to_nat j) q r) /\
      (R3 / D2 = q -> sg buf2 0 (i + 1) = r0) /\ (R3 / D2 <> q -> zn buf2 i = base - 1)).
    { intros HR HRd. assert (G3 : R3 < base * D2). { rewrite E3. clear - HR Bx. unfold base in *. lia. }
      cbn [long_div]. cbv zeta. rewrite (guess_ok m d0 d1 sH0 (proj2 Bd0) Bd1 buf i U ltac:(clear - Hi; lia) ltac:(clear - Li Lb; lia) ltac:(clear - Lb; lia) HR HRd). mret. fold R. rewrite <- E3. fold D2.
      destruct (Z.lt_ge_cases R3 ((q + 1) * D2)) as [G|G].
      - assert (EG : R3 / D2 = q). { symmetry. apply (Z.div_unique _ _ q (R3 - D2 * q)); [left; clear - G1 G; lia|clear; lia]. }
        rewrite EG.
        destruct (long_step m b2 rnz d0 d1 0 p Bn U2 L2 sR1 EB E0 E1 sH0 ltac:(clear; lia) Hp0 Hpr buf j W W q r0 0 J0 U Li2 ltac:(rewrite <- Ei; exact EV) HV DM' BM Bq VQ) as (buf' & cy & b & E & Wr & Hcy & T & _ & HEx).
        rewrite <- Ei in *. rewrite E. mret. clear E.
        pose proof (wrote_zlen _ _ _ _ Wr) as L'. rewrite get_ok by (clear - L' Lb Li Hi; lia). mret.
        assert (ET : zn buf' (i + 1) = zn buf (i + 1)) by (apply Wr; clear - Hi; lia). rewrite ET.
        rewrite as_i32_id by (clear - Hcy; unfold base in *; lia).
        rewrite i32_ok by (clear - B2 Hcy; unfold base in *; lia). mret. rewrite T. rewrite i32_ok by (clear; lia). mret. change (0 =? -1) with false. cbv iota.
        rewrite set_ok by (clear - L' Lb Li Hi; lia). mret. mret. rewrite as_i32_id by (clear - Bq; unfold base in *; lia). rewrite <- EJ. rewrite set_ok by (clear - Lr J0 Hn9; lia). mret.
        pose proof (wrote_upd buf' (i + 1) 0 ltac:(apply Wr) ltac:(clear - L' Lb Li Hi; lia) ltac:(unfold base; clear; lia)) as W1.
        exists (upd (Z.to_nat (i + 1)) 0 buf'). split; [apply W1|]. split; [rewrite zlen_upd; clear - L' Lb; lia|]. split; [reflexivity|]. split; [intros _|intros X; exfalso; apply X; reflexivity].
        rewrite (wrote_sg _ _ _ _ 0 (i + 1) W1) by (clear; lia). symmetry. rewrite HEx; [rewrite Z.pow_0_r; clear; lia|rewrite Z.pow_0_r; clear; lia|rewrite Z.pow_0_r; apply Z.divide_1_l].
      - assert (EG : R3 / D2 = q + 1). { symmetry. apply (Z.div_unique _ _ (q + 1) (R3 - D2 * (q + 1))); [left; clear - G2 G; lia|clear; lia]. }
        rewrite EG. assert (Bq1 : q + 1 < base).
        { assert (X : (q + 1) * D2 < base * D2) by (clear - G G3; lia). apply Z.mul_lt_mono_pos_r in X; [exact X|clear - BD2; unfold base in *; lia]. }
        destruct (over_step m b2 rnz d0 d1 0 p Bn U2 L2 sR1 EB E0 E1 sH0 ltac:(clear; lia) Hp0 Hpr buf j W W q r0 0 J0 ltac:(clear - Lb Hn9 R1; lia) U Li2 ltac:(rewrite <- Ei; exact EV) HV DM' BM (proj1 Bq) Bq1 VQ) as (buf' & cy & b & buf'' & b' & E & Wr & Hcy & T & _).
        assert (TOP : zn buf' i = base - 1).
        { rewrite Ei in *. exact (over_top buf j W q r0 R3 buf' cy b J0 U Li2 EV DM' BM (proj1 Bq) Bq1 (proj1 W3) G E T). }
        rewrite <- Ei in *. rewrite E. mret. clear E.
        pose proof (wrote_zlen _ _ _ _ Wr) as L'. rewrite get_ok by (clear - L' Lb Li Hi; lia). mret.
        assert (ET : zn buf' (i + 1) = zn buf (i + 1)) by (apply Wr; clear - Hi; lia). rewrite ET.
        rewrite as_i32_id by (clear - Hcy; unfold base in *; lia).
        rewrite i32_ok by (clear - B2 Hcy; unfold base in *; lia). mret. rewrite T. rewrite i32_ok by (clear; lia). mret. change (-1 =? -1) with true. cbv iota.
        rewrite i64_ok by (clear - Bq; unfold base in *; lia). mret. rewrite <- EJ.
        destruct (negate_any m (Z.to_nat rnz) buf' j 0 ltac:(apply Wr) J0 ltac:(clear - L' Lb Hn9 R1; lia) ltac:(clear; lia)) as (buf3 & b3 & EN' & U3 & L3 & F3).
        rewrite EN'. mret. mret. replace (q + 1 - 1) with q by (clear; lia).
        rewrite as_i32_id by (clear - Bq; unfold base in *; lia). rewrite set_ok by (clear - Lr J0 Hn9; lia). mret.
        exists buf3. split; [exact U3|]. split; [clear - L3 L' Lb; lia|]. split; [reflexivity|]. split; [intros X; exfalso; clear - X; lia|]. intros _.
        rewrite F3; [exact TOP|clear - Hi; lia|right; clear - Ei Hp J0 R1; lia]. }
    pose proof (wrote_upd r j q Ur ltac:(clear - Lr J0 Hn9; lia) Bq) as W0. set (r1 := upd (Z.to_nat j) q r) in *. pose proof (wrote_zlen _ _ _ _ W0) as L0.
    (* the rest, after a right guess *)
    assert (REST : forall buf2, uok buf2 -> zlen buf2 = 18 -> sg buf2 0 (i + 1) = r0 ->
      ((forall k, 0 <= k < j -> good_guess W k) -> exists r', long_div m n b2 rnz d0 d1 buf2 (i - 1) r1 = Ret r' /\ wrote r r' 0 (j + 1) /\ sg r' 0 (j + 1) = W / D 0) /\
      (m = Debug -> forall r', long_div m n b2 rnz d0 d1 buf2 (i - 1) r1 = Ret r' -> forall k, 0 <= k < j -> good_guess W k)).
    { intros buf2 Ub2 Lb2 Sb2.
      assert (GG : forall k, 0 <= k < j -> (good_guess W k <-> good_guess r0 k)). { intros k Hk. unfold good_guess. rewrite ERr. rewrite sD_mod by (clear - Hk; lia). reflexivity. }
      destruct (IH buf2 r1 r0) as [IH1 IH2].
      - exact Ub2.
      - apply W0.
      - clear - Ei Li. lia.
      - exact Lb2.
      - clear - Lr L0. lia.
      - clear - Hn9. lia.
      - exact BM.
      - replace (p + rnz + (j - 1) + 2) with (i + 1) by (clear - Ei; lia). symmetry. exact Sb2.
      - replace (p + rnz + (j - 1)) with (i - 1) in * by (clear - Ei; lia). split.
        + intros X. destruct (IH1 ltac:(intros k Hk; apply GG; auto)) as (r' & E' & W2 & Es). exists r'. split; [exact E'|].
          split; [eapply wrote_trans; [exact W0|exact W2|clear - J0; lia..]|]. rewrite sg_snoc by exact J0. rewrite Es. replace (0 + j) with j by (clear; lia).
          assert (ZJ : zn r' j = q). { destruct W2 as (_ & _ & F). rewrite F by (clear - J0; lia). unfold r1. apply zn_upd_eq. clear - Lr J0 Hn9. lia. }
          rewrite ZJ, DM'. assert (ED : D j = base ^ j * D 0). { unfold D, dshift. replace (0 + p + j) with (0 + p + 0 + j) by (clear; lia). rewrite base_pow_split by (clear - J0 Hp; lia). ring. }
          rewrite ED. replace (q * (base ^ j * D 0)) with (base ^ j * q * D 0) by ring. rewrite Z.div_add_l by (pose proof (sD_pos 0 ltac:(clear; lia)) as X0; clear - X0; lia). apply Z.add_comm.
        + intros Hm r' E k Hk. apply GG; [exact Hk|]. apply (IH2 Hm r' E k Hk). }
    split.
    - intros HG. pose proof (HG j ltac:(clear - J0; lia)) as Gj. apply GE in Gj. destruct Gj as (Q1 & Q3).
      assert (Q2 : R < D2 \/ j = 0 /\ m = Release /\ R = D2).
      { destruct (Z.lt_ge_cases R D2) as [C|C]; [auto|right]. assert (RE : R = D2) by (clear - RLE C; lia). split; [|split; [|exact RE]].
        - destruct (Z.eq_dec j 0) as [|J1]; [assumption|exfalso]. specialize (Q3 ltac:(clear - J0 J1; lia)). assert (X : base <= R3 / D2); [|clear - X Q3 Bq; lia].
          apply Z.div_le_lower_bound; [clear - BD2; unfold base in *; lia|]. rewrite E3, RE. clear - Bx. lia.
        - destruct m eqn:Em; [exfalso|reflexivity]. specialize (Q1 eq_refl). clear - Q1 RE Bd1. unfold D2 in RE. lia. }
      destruct Q2 as [Q2|(Z0 & Em & RE)].
      2:{ assert (n = O) as -> by (clear - EJ Z0; lia). rewrite Z0 in *. rewrite Z.add_0_r in Ei.
        assert (QE : q = base - 1).
        { assert (X : base * D2 < (q + 2) * D2). { apply Z.le_lt_trans with R3; [rewrite E3, RE; clear - Bx; lia|]. clear - G2 BD2. unfold base in *. lia. }
          apply Z.mul_lt_mono_pos_r in X; [clear - X Bq; lia|clear - BD2; unfold base in *; lia]. }
        pose proof (last_base b2 rnz d0 d1 p Bn buf r W q r0 U2 L2 R1 EB H0 (proj2 Bd0) Bd1 Hp) as LB. cbv zeta in LB. rewrite <- Ei in LB. fold (D 0) in LB. rewrite Em.
        assert (DB : 0 < D 0 < base ^ (i + 1)).
        { split; [exact PD|]. apply Z.lt_le_trans with (1 := proj2 DT). replace (i + 1) with (1 + 1 + (i - 1)) by (clear; lia). rewrite base_pow_split by (clear - Hi; lia). change (base ^ (1 + 1)) with (base * base). apply Z.mul_le_mono_nonneg_r; [clear - PP; lia|clear - BD2'; lia]. }
        rewrite LB; [|first [assumption|exact RE]..]. exists (upd 0 q r). split; [reflexivity|].
        pose proof (wrote_upd r 0 q Ur ltac:(clear - Lr; lia) Bq) as W0'. split; [exact W0'|]. change (0 + 1) with 1. rewrite sg_1. change 0%nat with (Z.to_nat 0). rewrite zn_upd_eq by (clear - Lr; lia). exact EQ. }
      destruct (STEP Q2 Q1) as (buf2 & Ub2 & Lb2 & E & S1 & _). rewrite E.
      destruct (Z.eq_dec j 0) as [Z0|Z0].
      + assert (n = O) as -> by (clear - EJ Z0; lia). assert (ZJ : zn r1 j = q) by (unfold r1; apply zn_upd_eq; clear - Lr J0 Hn9; lia). clearbody r1. rewrite Z0 in *. exists r1. split; [reflexivity|]. split; [exact W0|].
        change (0 + 1) with 1. rewrite sg_1, ZJ. exact EQ.
      + apply (REST buf2 Ub2 Lb2 (S1 (Q3 ltac:(clear - J0 Z0; lia)))). intros k Hk. apply HG. clear - Hk. lia.
    - intros Hm r' E.
      assert (HRd : R < d0 * base).
      { pose proof E as E'. cbn [long_div] in E'. cbv zeta in E'. rewrite Hm in E'. apply bind_inv in E'. destruct E' as (qh & Eg & _).
        eapply guess_debug_inv; [exact U|clear - Hi; lia|clear - Li Lb; lia|clear - Lb; lia|exact Bd0|exact Eg]. }
      assert (HR : R < D2) by (clear - HRd Bd1; unfold D2; lia).
      destruct (STEP HR (fun _ => HRd)) as (buf2 & Ub2 & Lb2 & E' & S1 & S2). rewrite E' in E. clear E'.
      assert (Q3 : 1 <= j -> R3 / D2 = q).
      { intros J1. destruct (Z.eq_dec (R3 / D2) q) as [X|X]; [exact X|exfalso]. specialize (S2 X).
        assert (EN : exists n', n = S n') by (exists (Nat.pred n); clear - J1 EJ; lia). destruct EN as (n' & ->). cbn [long_div] in E. cbv zeta in E. rewrite Hm in E. apply bind_inv in E. destruct E as (qh & Eg & _).
        apply guess_debug_inv in Eg; [|exact Ub2|clear - Hi; lia|clear - Li Lb2; lia|clear - Lb2; lia|exact Bd0]. replace (i - 1 + 1) with i in Eg by (clear; lia). rewrite S2 in Eg.
        pose proof (uok_zn buf2 (i - 1) Ub2) as B4. clear - Eg Bd0 B4. unfold base in *. lia. }
      assert (Gj : good_guess W j) by (apply GE; auto).
      intros k Hk. destruct (Z.eq_dec k j) as [->|Nk]; [exact Gj|]. assert (J1 : 1 <= j) by (clear - Hk Nk; lia).
      destruct (REST buf2 Ub2 Lb2 (S1 (Q3 J1))) as [_ X]. apply (X Hm r' E). clear - Hk Nk. lia.
  Qed.
End safe.
