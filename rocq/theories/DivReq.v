(** * Division whatever the number of fractional digits asked for. *)
From Coq Require Import ZArith List Bool Lia QArith Qabs Qround.
From Coq Require Import ZifyBool ZifyNat.
From Verif Require Import Rust Tables Model_Base Model_Cmp Model_Arith Spec Spec_Div Spec_Request Lib QLib Cmp AddSub Sign Mul MulAbs Basics DivBasics Div Div2 Div3 Div4 Div5 DivQ DivG DivG2 Robust Robust2 DivP Agree.
Import ListNotations.
Open Scope Z_scope.
Ltac Zify.zify_post_hook ::= Z.div_mod_to_equations.

Lemma isize_wrap m z x : isize m z = Ret x -> (exists k, x = z + k * 18446744073709551616) /\ (-9223372036854775808 <= x <= 9223372036854775807) /\
  (m = Debug -> x = z).
Proof.
  unfold isize, i64, chk. destruct ((-9223372036854775808 <=? z) && (z <=? 9223372036854775807)) eqn:E.
  - intros H. injection H as <-. split; [exists 0; lia|]. split; [lia|auto].
  - destruct m; [discriminate|]. intros H. apply Ret_inj in H. replace (9223372036854775807 - -9223372036854775808 + 1) with 18446744073709551616 in H by lia.
    replace (z - -9223372036854775808) with (z + 9223372036854775808) in H by lia. clear E. pose proof (Z.mod_pos_bound (z + 9223372036854775808) 18446744073709551616 ltac:(lia)) as B.
    pose proof (Z.div_mod (z + 9223372036854775808) 18446744073709551616 ltac:(lia)) as D.
    set (r := (z + 9223372036854775808) mod 18446744073709551616) in *. set (q := (z + 9223372036854775808) / 18446744073709551616) in *. clearbody r q.
    split; [exists (- q); lia|]. split; [lia|discriminate].
Qed.
Lemma as_i8_mod z : as_i8 z = as_i8 (z mod 256).
Proof. unfold as_i8. rewrite Z.add_mod_idemp_l by lia. reflexivity. Qed.
Lemma as_isize_signed n : 0 <= n < 18446744073709551616 -> as_isize n = as_signed n.
Proof. intros H. unfold as_isize, as_signed. destruct (Z.ltb_spec n 9223372036854775808); lia. Qed.

(** The counts that can be taken. *)
Lemma count_taken m k : 0 <= k < 256 ->
  get_units m (as_i8 k) = if (k <=? 119) || (248 <=? k) then Ret (if k <=? 119 then units_for k else 0)
                          else match m with Debug => if k <=? 127 then Panic POverflow else Panic PIndex | Release => Panic PIndex end.
Proof.
  intros H. destruct (Z.le_gt_cases k 127) as [L|L].
  - rewrite as_i8_id by lia. rewrite get_units_total by lia. replace (248 <=? k) with false by lia. rewrite orb_false_r.
    destruct (k <=? 119); [reflexivity|]. destruct m; [replace (k <=? 127) with true by lia|]; reflexivity.
  - replace (k <=? 119) with false by lia. cbn [orb]. replace (as_i8 k) with (k - 256) by (unfold as_i8; lia).
    replace (k <=? 127) with false by lia.
    destruct (Z.leb_spec 248 k) as [L2|L2].
    + assert (D : k = 248 \/ k = 249 \/ k = 250 \/ k = 251 \/ k = 252 \/ k = 253 \/ k = 254 \/ k = 255) by lia.
      destruct m, D as [->|[->|[->|[->|[->|[->|[->| ->]]]]]]]; vm_compute; reflexivity.
    + rewrite get_units_neg by lia. destruct m; reflexivity.
Qed.

Definition request (m : build) (a b : fd) (i : Z) : outcome Z :=
  x <- isize m (i - (9 * (fu a + fu b) - frac_digits a - frac_digits b)) ;;
  f <- isize m (9 * (fu a + fu b) + (if x <? 0 then 0 else x)) ;;
  get_units m (as_i8 f).

Lemma div_abs_request m a b res : wf a -> wf b -> magnitude a <> 0 -> magnitude b <> 0 ->
  exists K : Z -> outcome (result unit * fd), (forall i, div_abs m a b res i = (g <- request m a b i ;; K g)) /\
  forall g o, 0 <= g <= 14 -> K g = Ret o -> exists lnz rnz, lead2 a b lnz rnz /\
   ((9 < exp_of a b lnz rnz /\ o = (Err Overflow, zero)) \/
    (exp_of a b lnz rnz <= 9 /\ qig a b lnz rnz <= 119 /\ units_for (qig a b lnz rnz) = Z.max 0 (exp_of a b lnz rnz) /\
     let F := Z.min 4 (Z.min (9 - Z.max 0 (exp_of a b lnz rnz)) g) in
     div_body m (fd_lsu a) (fd_lsu b) zero_units lnz rnz (qge a b lnz rnz) (Z.max 0 (exp_of a b lnz rnz) + F) F (qig a b lnz rnz) (F + qk a b lnz rnz + b2z (qge a b lnz rnz)) = Ret o)).
Proof.
  intros Ha Hb Na Nb. pose proof (wf_counts a Ha) as CA. pose proof (wf_counts b Hb) as CB.
  pose proof (wf_zlen a Ha) as LA. pose proof (wf_zlen b Hb) as LB.
  destruct (lead2_ex a b Ha Hb Na Nb) as (lnz & rnz & EL & ER & L).
  pose proof (qcounts_any a b lnz rnz Ha Hb L) as QC. cbv zeta in QC.
  pose proof (qge_spec a b lnz rnz Ha Hb L) as GE.
  pose proof (l2_a0 a b lnz rnz L) as A0. pose proof (l2_b0 a b lnz rnz L) as B0.
  eexists. split.
  - intros i. unfold div_abs, request. cbv zeta. rewrite !intg_ok. unfold frac. fold (frac_digits a) (frac_digits b).
    rewrite !get_units_ok by lia. mret. mret. mret. mret. fold (iu a) (fu a) (iu b) (fu b).
    rewrite ER. mret. replace (rnz <? 0) with false by lia. rewrite EL. mret. replace (lnz <? 0) with false by lia.
    rewrite !get_ok by lia. mret. mret. change DIGITS_PER_UNIT with 9.
    replace (9 * (fu a + fu b) - frac_digits a - frac_digits b) with (fu a * 9 - frac_digits a + fu b * 9 - frac_digits b) by (clear; lia).
    destruct (isize m (i - _)) as [x|p]; cbn [bind]; [|reflexivity].
    replace (9 * (fu a + fu b)) with (fu a * 9 + fu b * 9) by (clear; lia).
    destruct (isize m _) as [f|p]; cbn [bind]; [|reflexivity]. reflexivity.
  - intros g0 o HG H. cbv beta in H. exists lnz, rnz. split; [exact L|]. unfold exp_of, qig.
    rewrite !slice_ok in H by lia. do 2 (rewrite bind_Ret in H; cbv beta in H). cbn [skipn Z.to_nat] in H. rewrite !Z.sub_0_r in H. rewrite GE in H. clear GE.
    set (g := qge a b lnz rnz) in *. set (K := qk a b lnz rnz) in *.
    set (zr := unit_leading_zeroes (zn (fd_lsu b) rnz)) in *. set (zl := unit_leading_zeroes (zn (fd_lsu a) lnz)) in *.
    set (ig := 9 * K + zr - zl + b2z g) in *.
    replace (if g then (lnz + 1) * 9 - zl - fu a * 9 - ((rnz + 1) * 9 - zr - fu b * 9) + 1
           else (lnz + 1) * 9 - zl - fu a * 9 - ((rnz + 1) * 9 - zr - fu b * 9)) with ig in H
      by (unfold ig, K, qk, b2z; clear; destruct g; lia).
    assert (EG' : (if g0 >? MAX_FRAC_UNITS then MAX_FRAC_UNITS else g0) = Z.min 4 g0).
    { change MAX_FRAC_UNITS with 4. destruct (Z.gtb_spec g0 4); clear - H0; lia. }
    rewrite EG' in H. clear EG'. change MAX_UNITS with 9 in H. assert (BG : 0 <= Z.min 4 g0 <= 4) by (clear - HG; lia).
    destruct QC as (QC1 & QC2 & QB). clearbody ig.
    destruct (Z.gtb_spec ig 0) as [I|I].
    + destruct (QC1 I) as (U1 & U2). apply bind_inv in H. destruct H as (pl & EP & H). apply bind_inv in EP. destruct EP as (u & EU & EP).
      apply count_i8 in EU; [|clear - QB I; lia]. destruct EU as (U3 & ->). rewrite U1 in EP.
      replace (K + b2z g >? 9) with (9 <? K + b2z g) in EP by (rewrite Z.gtb_ltb; reflexivity).
      destruct (Z.ltb_spec 9 (K + b2z g)) as [O|O]; apply Ret_inj in EP; subst pl.
      * left. split; [exact O|]. apply Ret_inj in H. symmetry. exact H.
      * right. assert (EF : (if K + b2z g + Z.min 4 g0 >? 9 then 9 - (K + b2z g) else Z.min 4 g0) = Z.min 4 (Z.min (9 - (K + b2z g)) g0)).
        { destruct (Z.gtb_spec (K + b2z g + Z.min 4 g0) 9); clear - H0 BG O U2; lia. }
        rewrite EF in H. clear EF. replace (Z.max 0 (K + b2z g)) with (K + b2z g) by lia. replace (Z.max 0 ig) with ig by lia.
        set (F := Z.min 4 (Z.min (9 - (K + b2z g)) g0)) in *.
        split; [exact O|]. split; [exact U3|]. split; [exact U1|]. cbv zeta.
        rewrite <- H. replace (F + (K + b2z g) - 1 + 1) with (F + K + b2z g) by (clear; lia).
        unfold div_body. cbv zeta. change DIGITS_PER_UNIT with 9. reflexivity.
    + destruct (QC2 ltac:(clear - I; lia)) as (U1 & U2). apply bind_inv in H. destruct H as (pl & EP & H). apply bind_inv in EP. destruct EP as (u & EU & EP).
      apply count_i8 in EU; [|clear - QB I; lia]. destruct EU as (U3 & ->). apply Ret_inj in EP; subst pl. rewrite U2 in H. right.
      replace (Z.max 0 (K + b2z g)) with 0 by lia. replace (Z.max 0 ig) with 0 by lia.
      split; [clear - U1; lia|]. split; [clear; lia|]. split; [reflexivity|]. cbv zeta. replace (Z.min 4 (Z.min (9 - 0) g0)) with (Z.min 4 g0) by (clear; lia).
      rewrite <- H. replace (Z.min 4 g0 - (1 - K - b2z g) + 1) with (Z.min 4 g0 + K + b2z g) by (clear; lia).
      unfold div_body. cbv zeta. change DIGITS_PER_UNIT with 9. reflexivity.
Qed.

(** What is taken of a request. *)
Lemma request_taken m a b incr : wf a -> wf b -> 0 <= incr < 18446744073709551616 ->
  (forall g, request m a b (as_isize incr) = Ret g -> get_units m (as_i8 (digits_taken a b incr)) = Ret g) /\ (m = Release \/ incr <= 9223372036854775807 - 162 \/ 9223372036854775808 + 16 <= incr -> request m a b (as_isize incr) = get_units m (as_i8 (digits_taken a b incr))).
Proof.
  intros Ha Hb Hi. pose proof (wf_counts a Ha) as CA. pose proof (wf_counts b Hb) as CB. rewrite as_isize_signed by exact Hi.
  unfold request, digits_taken. set (e := 9 * (fu a + fu b)). set (fd := frac_digits a + frac_digits b). set (i := as_signed incr).
  assert (Bi : -9223372036854775808 <= i <= 9223372036854775807 /\ (incr <= 9223372036854775807 -> i = incr) /\ (9223372036854775808 <= incr -> i = incr - 18446744073709551616)).
  { unfold i, as_signed. clear - Hi. destruct (Z.ltb_spec incr 9223372036854775808); lia. }
  assert (Be : 0 <= e - fd <= 16 /\ 0 <= e <= 162) by (unfold e, fd, fu, units_for in *; clear - CA CB; lia).
  replace (e - frac_digits a - frac_digits b) with (e - fd) by (unfold fd; clear; lia). clearbody e fd i. clear CA CB.
  assert (X : forall x f, isize m (i - (e - fd)) = Ret x -> isize m (e + (if x <? 0 then 0 else x)) = Ret f ->
     as_i8 f = as_i8 ((if (fd + i <? e) && (e - 9223372036854775808 <=? fd + i) then e else fd + i) mod 256)).
  { intros x f Ex Ef. destruct (isize_wrap _ _ _ Ex) as ((k & Kx) & Bx & _). destruct (isize_wrap _ _ _ Ef) as ((k' & Kf) & _).
    rewrite (as_i8_mod f). f_equal. rewrite Kf.
    assert (M : forall z k, (z + k * 18446744073709551616) mod 256 = z mod 256).
    { intros z k0. replace (k0 * 18446744073709551616) with (k0 * 72057594037927936 * 256) by (clear; lia). apply Z.mod_add. clear; lia. }
    rewrite M. destruct (Z.ltb_spec x 0) as [N|N].
    - assert (k = 0) by (clear - Kx Bx N Bi Be; lia). subst k. replace (_ && _) with true by (clear - Kx Bx N Be; lia). f_equal. clear; lia.
    - assert (C : ((fd + i <? e) && (e - 9223372036854775808 <=? fd + i))%bool = false).
      { destruct (Z.ltb_spec (fd + i) e) as [Y|Y]; [|reflexivity]. cbn [andb]. clear - Kx Bx N Y. lia. }
      rewrite C. replace (e + x) with (fd + i + k * 18446744073709551616) by (clear - Kx; lia). apply M. }
  split.
  - intros g H. apply bind_inv in H. destruct H as (x & Ex & H). apply bind_inv in H. destruct H as (f & Ef & H). rewrite <- (X x f Ex Ef). exact H.
  - intros NO. assert (T : forall z, m = Release \/ -9223372036854775808 <= z <= 9223372036854775807 -> exists x, isize m z = Ret x).
    { intros z Hz. unfold isize, i64, chk. clear X; destruct ((-9223372036854775808 <=? z) && (z <=? 9223372036854775807))%bool eqn:E; [eauto|]. destruct m; [|eauto]. exfalso. destruct Hz as [Hz|Hz]; [discriminate|]. apply andb_false_iff in E. clear - Hz E. lia. }
    destruct (T (i - (e - fd))) as (x & Ex). { destruct Bi as (B1 & B2 & B3). destruct NO as [->|[N|N]]; [auto|right..]; [specialize (B2 ltac:(clear - N; lia)); clear - B2 Be N Hi; lia|specialize (B3 ltac:(clear - N; lia)); clear - B3 Be N Hi; lia]. }
    destruct (T (e + (if x <? 0 then 0 else x))) as (f & Ef).
    { destruct (isize_wrap _ _ _ Ex) as ((k & Kx) & Bx & _). destruct NO as [->|N]; [auto|right]. destruct (Z.ltb_spec x 0) as [Y|Y]; [clear - Be; lia|]. destruct Bi as (B1 & B2 & B3). destruct N as [N|N]; [specialize (B2 ltac:(clear - N; lia)); clear - B1 B2 Be N Hi Kx Bx Y; lia|specialize (B3 ltac:(clear - N; lia)); clear - B1 B3 Be N Hi Kx Bx Y; lia]. }
    rewrite Ex. mret. rewrite Ef. mret. rewrite (X x f Ex Ef). reflexivity.
Qed.

Lemma div_to_run_any m a b res incr rs d : wf a -> wf b -> ~ (value a == 0)%Q -> ~ (value b == 0)%Q -> 0 <= incr < 18446744073709551616 ->
  div_to m a b res incr = Ret (rs, d) ->
  (digits_taken a b incr <= 119 \/ 248 <= digits_taken a b incr) /\
  exists e, (pow10 (9 * (e - 1)) <= Qabs (value a / value b))%Q /\ (Qabs (value a / value b) < pow10 (9 * e))%Q /\
   ((9 < e /\ rs = Err Overflow /\ d = zero) \/
    (e <= 9 /\ rs = Ok tt /\ iu d = Z.max 0 e /\ frac_digits d = 9 * fu d /\ fu d = Z.min 4 (Z.min (9 - iu d) (groups_taken a b incr)) /\
     (significant_units 2 b \/ tame (fu d) a b ->
      wf d /\ clean d /\ nohidden d /\ ~ negzero d /\ (~ (value d == 0)%Q -> neg d = xorb (neg a) (neg b)) /\
      (value d == truncate_at (value a / value b) (frac_digits d))%Q))).
Proof.
  intros Ha Hb Na Nb Hi H. pose proof (wf_counts a Ha) as CA. pose proof (wf_counts b Hb) as CB.
  assert (HR : div_to Release a b res incr = Ret (rs, d)) by (destruct m; [apply (sim_ret _ _ _ (s_div_to a b res incr)), H|exact H]).
  rewrite value_zero_iff in Na, Nb by assumption. clear H. unfold div_to in HR.
  rewrite !is_neg_ok in HR by (apply wf_intg; assumption). cbv zeta in HR. apply bind_inv in HR. destruct HR as ([rs0 d0] & E & HR).
  destruct (div_abs_request Release a b res Ha Hb Na Nb) as (K & EK & PK). rewrite EK in E. clear EK. apply bind_inv in E. destruct E as (g & Eg & E).
  apply (proj1 (request_taken Release a b incr Ha Hb Hi)) in Eg.
  assert (BT : 0 <= digits_taken a b incr < 256) by (apply Z.mod_pos_bound; clear; lia).
  rewrite count_taken in Eg by exact BT. set (k := digits_taken a b incr) in *.
  assert (KK : (k <=? 119) || (248 <=? k) = true) by (destruct ((k <=? 119) || (248 <=? k)); [reflexivity|discriminate Eg]).
  rewrite KK in Eg. apply Ret_inj in Eg. assert (GT : groups_taken a b incr = g) by (unfold groups_taken; fold k; exact Eg).
  split; [clear - KK; lia|]. rewrite GT. assert (BG : 0 <= g <= 14) by (rewrite <- Eg; clear - KK BT; unfold units_for; destruct (Z.leb_spec k 119); lia). clearbody k. clear Eg KK BT.
  destruct (PK g _ BG E) as (lnz & rnz & L & C). clear E PK.
  exists (exp_of a b lnz rnz). pose proof (exp_bounds a b lnz rnz Ha Hb L) as EB. cbv zeta in EB. destruct EB as [E1 E2].
  split; [exact E1|]. split; [exact E2|]. destruct C as [[O E]|(O & BI & EU & E)].
  { left. injection E as -> ->. cbn [finish_sign] in HR. injection HR as <- <-. auto. }
  right. split; [exact O|]. cbv zeta in E. set (e := exp_of a b lnz rnz) in *. set (F := Z.min 4 (Z.min (9 - Z.max 0 e) g)) in *.
  assert (BF : 0 <= F <= 4) by (unfold F; clear - BG O; lia). assert (BU : Z.max 0 e + F <= 9) by (unfold F; clear - BG O; lia).
  assert (HF : F = Z.min 4 (Z.min (9 - Z.max 0 e) g)) by reflexivity. clearbody F.
  pose proof (l2_a0 a b lnz rnz L) as A0. pose proof (l2_b0 a b lnz rnz L) as B0.
  assert (EX : F + qk a b lnz rnz + b2z (qge a b lnz rnz) = F + e) by (unfold e, exp_of; clear; ring).
  assert (Room : 1 <= rnz -> Z.max 0 e + F + lnz + 1 < 18 \/ qge a b lnz rnz = false).
  { intros R1. destruct (Z.lt_ge_cases (Z.max 0 e + F + lnz + 1) 18) as [?|X]; [auto|right].
    destruct (qge a b lnz rnz) eqn:G; [exfalso|reflexivity].
    refine (body_no_room Release _ _ _ lnz rnz _ _ _ _ _ R1 _ _ E); [|rewrite EX]; clear - X A0 CA BU BF; lia. }
  assert (X : exists r, rs0 = Ok tt /\ d0 = mkfd (as_i8 (qig a b lnz rnz)) (9 * F) r /\ loose Release F (qig a b lnz rnz) (F + qk a b lnz rnz + b2z (qge a b lnz rnz)) r /\
     (significant_units 2 b \/ tame F a b -> wrote zero_units r 0 (Z.max 0 (F + e)) /\ sg r 0 (Z.max 0 (F + e)) = quotient_units a b F)).
  { assert (LW : forall r, wrote zero_units r 0 (Z.max 0 (F + e)) -> loose Release F (qig a b lnz rnz) (F + qk a b lnz rnz + b2z (qge a b lnz rnz)) r).
    { intros r W. rewrite EX. split; [apply ubelow_uok, W|]. split; [rewrite (wrote_zlen _ _ _ _ W); reflexivity|].
      intros j Hj. pose proof (wrote_sg _ _ _ _ j 1 W ltac:(clear - Hj; lia) ltac:(right; clear - Hj; lia)) as X. rewrite !sg_1 in X. rewrite X. unfold zero_units. apply zn_repeat0. }
    destruct (Z.eq_dec rnz 0) as [R|R].
    - destruct (body_short Release a b lnz rnz F (Z.max 0 e + F) (qig a b lnz rnz) Ha Hb L R BF) as (r & E' & W & Es); [rewrite EX; clear - BU; lia|].
      rewrite E' in E. rewrite EX in W, Es. exists r. split; [congruence|]. split; [congruence|]. split; [apply LW, W|auto].
    - assert (R1 : 1 <= rnz) by (clear - R B0; lia). specialize (Room R1).
      destruct (body_any Release a b lnz rnz F (Z.max 0 e + F) (qig a b lnz rnz) Ha Hb L R1 BF ltac:(rewrite EX; clear; lia) ltac:(clear - BU BF; lia) eq_refl) as [(r & E' & Lo)|(p & E' & _)];
        rewrite E' in E; [|discriminate]. exists r. split; [congruence|]. split; [congruence|]. split; [exact Lo|]. intros S.
      assert (Y : exists r, div_body Release (fd_lsu a) (fd_lsu b) zero_units lnz rnz (qge a b lnz rnz) (Z.max 0 e + F) F (qig a b lnz rnz) (F + qk a b lnz rnz + b2z (qge a b lnz rnz)) = Ret (Ok tt, mkfd (as_i8 (qig a b lnz rnz)) (9 * F) r) /\
        wrote zero_units r 0 (Z.max 0 (F + qk a b lnz rnz + b2z (qge a b lnz rnz))) /\ sg r 0 (Z.max 0 (F + qk a b lnz rnz + b2z (qge a b lnz rnz))) = quotient_units a b F).
      { destruct S as [S|S].
        - apply body_long; try assumption; [discriminate|rewrite EX; clear; lia|clear - BU BF; lia].
        - apply body_gen; try assumption; [rewrite EX; clear; lia|clear - BU BF; lia|reflexivity]. }
      destruct Y as (r' & Y & W & Es). rewrite Y in E'. assert (r' = r) as -> by congruence. rewrite EX in W, Es. auto. }
  destruct X as (r & -> & -> & Lo & TR). destruct (loose_intro Release a b lnz rnz F r Ha Hb BF BU BI EU Lo) as (R1 & R2 & R3 & R4 & R5).
  set (d' := mkfd (as_i8 (qig a b lnz rnz)) (9 * F) r) in *. cbn [finish_sign] in HR. injection HR as <- <-. split; [reflexivity|].
  set (s := xorb (neg a) (neg b)) in *. set (d := if s then set_neg_and_check_zero d' else d').
  assert (SD : same_digits d' d) by (unfold d; destruct s; [apply check_zero_same, R1|repeat split]).
  pose proof SD as (_ & SF & _).
  assert (FU : fu d = F) by (rewrite (same_fu _ _ SD); exact R5). assert (IU : iu d = Z.max 0 e) by (rewrite (same_iu _ _ SD); exact R4).
  assert (FD : frac_digits d = 9 * fu d) by (rewrite FU; unfold frac_digits; rewrite SF; reflexivity).
  split; [exact IU|]. split; [exact FD|]. split; [rewrite FU, IU; exact HF|]. rewrite FU. intros S. destruct (TR S) as (W & Es).
  assert (WD' : wf d').
  { constructor; [apply R1|apply W|apply R1|cbn [fd_frac d']; clear - BF; lia|rewrite R4, R5; exact BU]. }
  assert (P : neg d' = false) by exact R2.
  assert (M' : magnitude d' = quotient_units a b F).
  { destruct Lo as (_ & _ & Z0). rewrite EX in Z0. rewrite magnitude_sg, R4, R5. change (fd_lsu d') with r. fold e.
    replace (Z.max 0 e + F) with (Z.max 0 (F + e) + (Z.max 0 e + F - Z.max 0 (F + e))) by (clear; lia). rewrite sg_app by (clear - BF; lia).
    rewrite (sg_0 r (0 + Z.max 0 (F + e))) by (intros j Hj; apply Z0; clear - Hj; lia). rewrite Es. ring. }
  assert (WD : wf d) by (unfold d; destruct s; [apply check_zero_wf, WD'|exact WD']).
  assert (ND : neg d = s && negb (magnitude d =? 0)).
  { rewrite (same_magnitude _ _ SD). unfold d; destruct s; [rewrite check_zero_neg by first [exact WD'|apply R1]; reflexivity|rewrite P; reflexivity]. }
  assert (MD : magnitude d = quotient_units a b (fu d)) by (rewrite (same_magnitude _ _ SD), FU; exact M').
  assert (NH : nohidden d') by (unfold nohidden; rewrite R5; change (frac_digits d') with (9 * F); rewrite Z.sub_diag, Z.pow_0_r; apply Z.mod_1_r).
  split; [exact WD|]. split; [eapply same_clean; [exact SD|apply R1]|]. split; [eapply same_nohidden; eassumption|].
  split. { intros [N1 N2]. apply value_zero_iff in N2; [|exact WD]. rewrite ND, N2 in N1. destruct s; discriminate. }
  split. { intros V. rewrite ND. replace (magnitude d =? 0) with false; [apply andb_true_r|]. symmetry. apply Z.eqb_neq. intros X. apply V. apply value_zero_iff; assumption. }
  apply (div_to_value s); auto.
Qed.
