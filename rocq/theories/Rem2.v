(** * What [rem_abs] returns. *)
From Coq Require Import ZArith List Bool Lia QArith.
From Coq Require Import ZifyBool ZifyNat.
From Verif Require Import Rust Tables Model_Base Model_Cmp Model_Arith Spec Lib Cmp AddSub Sign Mul DivBasics Div Div2 Div3 Div4 DivQ Rem.
Import ListNotations.
Open Scope Z_scope.
Ltac Zify.zify_post_hook ::= Z.div_mod_to_equations.

(** The digit counts of the remainder. *)
Lemma rem_finish_ok m r nz fr M : uok r -> zlen r = 9 -> 0 <= fr <= 81 -> M = sg r 0 9 -> lead_num M nz -> 
  exists d, rem_finish m r nz (units_for fr) fr = Ret (Ok tt, d) /\ wf d /\ clean d /\ tight d /\ neg d = false /\ frac_digits d = fr /\ magnitude d = M /\ fd_lsu d = r /\
    (iu d = 0 \/ base ^ (iu d + fu d - 1) <= M).
Proof.
  intros U L Hfr EM LN.
  assert (HF : 0 <= units_for fr <= 9) by (unfold units_for; lia). assert (NF : 9 * (units_for fr - 1) < fr) by (unfold units_for; lia).
  assert (LR : length r = 9%nat) by (unfold zlen in L; lia).
  assert (NZ8 : nz <= 8).
  { destruct LN as [?|(N0 & B & _)]; [lia|]. pose proof (sg_bound r 0 9 U ltac:(lia)). assert (base ^ nz < base ^ 9) by lia. apply Z.pow_lt_mono_r_iff in H0; [lia|reflexivity|lia]. }
  assert (HH : forall ig, 0 <= ig <= 81 -> units_for ig + units_for fr <= 9 -> M < 10 ^ ig * base ^ units_for fr ->
     let d := mkfd ig fr r in wf d /\ clean d /\ tight d /\ neg d = false /\ frac_digits d = fr /\ magnitude d = M /\ fd_lsu d = r /\ iu d = units_for ig /\ fu d = units_for fr).
  { intros ig Hig Fit HT d.
    assert (Hid : int_digits d = ig) by (unfold int_digits; cbn [d fd_intg]; apply Z.mod_small; lia).
    assert (Hiu : iu d = units_for ig) by (unfold iu; rewrite Hid; reflexivity). assert (Hfu : fu d = units_for fr) by reflexivity.
    assert (I0 : 0 <= units_for ig) by (unfold units_for; lia).
    assert (MB : M < base ^ (units_for ig + units_for fr)).
    { rewrite base_pow_split by lia. apply Z.lt_le_trans with (1 := HT). apply Z.mul_le_mono_nonneg_r; [apply Z.lt_le_incl, pow_base_pos; lia|].
      change base with (10 ^ 9). rewrite <- Z.pow_mul_r by lia. apply Z.pow_le_mono_r; [lia|]. unfold units_for. lia. }
    assert (E9 : M = sg r 0 (units_for ig + units_for fr) + base ^ (units_for ig + units_for fr) * sg r (units_for ig + units_for fr) (9 - units_for ig - units_for fr)).
    { rewrite EM. replace 9 with (units_for ig + units_for fr + (9 - units_for ig - units_for fr)) at 1 by lia. rewrite sg_app by lia. reflexivity. }
    assert (Z9 : sg r (units_for ig + units_for fr) (9 - units_for ig - units_for fr) = 0).
    { pose proof (sg_nonneg r 0 (units_for ig + units_for fr) U) as G1. pose proof (sg_nonneg r (units_for ig + units_for fr) (9 - units_for ig - units_for fr) U) as G2.
      pose proof (pow_base_pos (units_for ig + units_for fr) ltac:(lia)) as G3. clear - E9 MB G1 G2 G3. nia. }
    rewrite Z9, Z.mul_0_r, Z.add_0_r in E9.
    assert (W : wf d) by (constructor; cbn [d fd_lsu fd_intg fd_frac]; try assumption; try lia).
    assert (Mg : magnitude d = M) by (rewrite magnitude_sg, Hiu, Hfu, E9; reflexivity).
    split; [exact W|]. split.
    { apply clean_intro; [|lia]. rewrite Hiu, Hfu. cbn [d fd_lsu]. intros k K. apply (sg_zero_inv r _ _ U Z9). lia. }
    split; [unfold tight; rewrite Mg, Hid, Hfu; exact HT|]. split; [unfold neg; cbn [d fd_intg]; lia|]. auto 10. }
  unfold rem_finish. change DIGITS_PER_UNIT with 9. destruct (Z.geb_spec nz (units_for fr)) as [G|G].
  - destruct LN as [?|(N0 & B1 & B2)]; [lia|]. set (k := nz + 1 - units_for fr).
    rewrite as_i8_id by lia. rewrite (as_i8_id (units_for fr)) by lia. fold k. rewrite i8_ok by lia. mret. rewrite i8_ok by lia. mret. rewrite i8_ok by lia. mret. replace (k + units_for fr - 1) with nz by lia. rewrite get_ok by lia. mret.
    pose proof (top_bounds r nz U N0) as TB. pose proof (uok_zn r nz U) as Bu. set (u := zn r nz) in *.
    assert (E9 : M = sg r 0 (nz + 1)).
    { rewrite EM. symmetry. apply sg_top; [exact U|lia|]. rewrite <- EM. exact B2. }
    rewrite <- E9 in TB. pose proof (pow_base_pos nz N0) as Pn.
    assert (U1 : 1 <= u) by (clear - TB B1 Pn; clearbody u; nia). pose proof (lz_bound u U1) as BL. pose proof (lz_spec u ltac:(lia)) as LS.
    rewrite i8_ok by lia. mret. set (ig := k * 9 - unit_leading_zeroes u) in *.
    assert (Ui : units_for ig = k) by (unfold units_for, ig; lia).
    destruct (HH ig ltac:(lia) ltac:(rewrite Ui; lia)) as (Y1 & Y2 & Y3 & Y4 & Y5 & Y6 & Y7 & Y8 & Y9).
    { apply Z.lt_le_trans with (1 := proj2 TB). apply Z.le_trans with (base ^ nz * 10 ^ (9 - unit_leading_zeroes u)).
      - apply Z.mul_le_mono_nonneg_l; lia.
      - apply Z.eq_le_incl. change base with (10 ^ 9). rewrite <- !Z.pow_mul_r by lia. rewrite <- !Z.pow_add_r by lia. f_equal. lia. }
    eexists. split; [reflexivity|]. split; [exact Y1|]. split; [exact Y2|]. split; [exact Y3|]. split; [exact Y4|]. split; [exact Y5|]. split; [exact Y6|]. split; [exact Y7|].
    right. rewrite Y8, Y9, Ui. replace (k + units_for fr - 1) with nz by lia. exact B1.
  - destruct (HH 0 ltac:(lia) ltac:(cbn; lia)) as (Y1 & Y2 & Y3 & Y4 & Y5 & Y6 & Y7 & Y8 & Y9).
    { change (10 ^ 0) with 1. rewrite Z.mul_1_l. destruct LN as [(-> & _)|(N0 & B1 & B2)]; [apply pow_base_pos; lia|].
      apply Z.lt_le_trans with (1 := B2). apply Z.pow_le_mono_r; [reflexivity|lia]. }
    eexists. split; [reflexivity|]. split; [exact Y1|]. split; [exact Y2|]. split; [exact Y3|]. split; [exact Y4|]. split; [exact Y5|]. split; [exact Y6|]. split; [exact Y7|]. left. exact Y8.
Qed.

(** ** The parts of [rem_abs] *)

Definition rem_bufs (m : build) (nf : Z) (ls rs : list Z) (lsh rsh b1len b2len : Z) : outcome (list Z * list Z) :=
  if nf =? 1 then
    buf1 <- write_slice (repeat 0 18) lsh b1len ls ;;
    buf2 <- write_slice (repeat 0 18) rsh b2len rs ;;
    Ret (buf1, buf2)
  else
    '(nl, carry) <- norm_units m nf ls 0 ;;
    buf1 <- write_slice (repeat 0 18) lsh b1len nl ;;
    '(buf1, carry) <-
      (if carry >? 0 then
         buf1 <- set buf1 b1len (as_i32 carry) ;; Ret (buf1, 0)
       else Ret (buf1, carry)) ;;
    '(nr, carry) <- norm_units m nf rs carry ;;
    buf2 <- write_slice (repeat 0 18) rsh b2len nr ;;
    _ <- debug_assert m (carry =? 0) ;;
    Ret (buf1, buf2).

Lemma rem_bufs_ok m nf (la lb : list Z) lsh rsh lnz rnz : uok la -> uok lb -> 1 <= nf < base -> 0 <= lsh -> 0 <= rsh -> 0 <= lnz -> 0 <= rnz ->
  zlen la = lnz + 1 -> zlen lb = rnz + 1 -> nf * sg lb 0 (rnz + 1) < base ^ (rnz + 1) ->
  lnz + 1 + lsh < 18 \/ (lnz + 1 + lsh = 18 /\ nf * sg la 0 (lnz + 1) < base ^ (lnz + 1)) -> rnz + 1 + rsh <= 18 ->
  exists buf1 buf2, rem_bufs m nf la lb lsh rsh (lnz + 1 + lsh) (rnz + 1 + rsh) = Ret (buf1, buf2) /\ uok buf1 /\ zlen buf1 = 18 /\
    sg buf1 0 18 = base ^ lsh * (nf * sg la 0 (lnz + 1)) /\ uok buf2 /\ zlen buf2 = 18 /\ sg buf2 0 (rnz + 1 + rsh) = base ^ rsh * (nf * sg lb 0 (rnz + 1)).
Proof.
  intros Ua Ub Hnf Hls Hrs Hl Hr La Lb Hb R0 R2. assert (R1 : lnz + 1 + lsh <= 18) by (clear - R0; lia). unfold rem_bufs.
  assert (B : forall s U k, uok s -> 0 <= U -> 0 <= k -> zlen s = k + 1 -> k + 1 + U <= 18 ->
     uok (blit (repeat 0 18) U s) /\ zlen (blit (repeat 0 18) U s) = 18 /\ sg (blit (repeat 0 18) U s) 0 18 = base ^ U * sg s 0 (k + 1)).
  { intros s U k Us HU Hk Ls Fit. split; [apply uok_blit; [apply uok_repeat0|exact Us]|]. split; [apply zlen_blit; [lia|rewrite zlen_repeat; lia]|].
    rewrite <- Ls. apply (sg_blit_zero 18); lia. }
  assert (B' : forall s, uok s -> zlen s = rnz + 1 -> sg (blit (repeat 0 18) rsh s) 0 (rnz + 1 + rsh) = base ^ rsh * sg s 0 (rnz + 1)).
  { intros s Us Ls. destruct (B s rsh rnz Us Hrs Hr Ls R2) as (X1 & X2 & X3). rewrite <- X3. apply sg_top; [exact X1|lia|]. rewrite X3.
    replace (rnz + 1 + rsh) with (rsh + (rnz + 1)) by lia. rewrite base_pow_split by lia. apply Z.mul_lt_mono_pos_l; [apply pow_base_pos; lia|]. apply sg_bound; [exact Us|lia]. }
  destruct (Z.eqb_spec nf 1) as [N|N].
  - subst nf. rewrite !write_slice_ok by (rewrite ?zlen_repeat; lia). mret. mret. do 2 eexists. split; [reflexivity|].
    destruct (B la lsh lnz Ua Hls Hl La ltac:(lia)) as (X1 & X2 & X3). destruct (B lb rsh rnz Ub Hrs Hr Lb ltac:(lia)) as (Y1 & Y2 & Y3).
    split; [exact X1|]. split; [exact X2|]. split; [rewrite X3; ring|]. split; [exact Y1|]. split; [exact Y2|]. rewrite (B' lb Ub Lb). ring.
  - destruct (norm_units_ok m nf ltac:(lia) la 0 Ua ltac:(unfold base; lia)) as (nl & c & E & Un & Ln & Hc & Es). rewrite E. mret. rewrite La in *.
    rewrite write_slice_ok by (rewrite ?zlen_repeat; clear - Ln R1 R2 Hls Hrs Hl Hr; lia). mret. destruct (B nl lsh lnz Un Hls Hl Ln ltac:(lia)) as (X1 & X2 & X3).
    set (buf1 := blit (repeat 0 18) lsh nl) in *.
    assert (EC : exists buf1', (if c >? 0 then buf0 <- set buf1 (lnz + 1 + lsh) (as_i32 c);; Ret (buf0, 0) else Ret (buf1, c)) = Ret (buf1', 0) /\
              uok buf1' /\ zlen buf1' = 18 /\ sg buf1' 0 18 = base ^ lsh * (nf * sg la 0 (lnz + 1))).
    { destruct (Z.gtb_spec c 0) as [C|C].
      - assert (R3 : lnz + 1 + lsh < 18).
        { destruct R0 as [?|[_ X]]; [assumption|exfalso]. pose proof (sg_nonneg nl 0 (lnz + 1) Un) as G. pose proof (pow_base_pos (lnz + 1) ltac:(lia)) as P. clear - Es X C G P. nia. }
        clear R1. rename R3 into R1. rewrite set_ok by (clear - X2 R1 Hls Hl; lia). mret. rewrite as_i32_id by (clear - Hc; unfold base in *; lia). eexists. split; [reflexivity|].
        split; [apply uok_upd; [exact X1|exact Hc]|]. split; [rewrite zlen_upd; exact X2|].
        rewrite sg_upd_zero; [|clear - R1 Hls Hl; lia|clear - X2; lia|].
        + rewrite X3. replace (lnz + 1 + lsh) with (lsh + (lnz + 1)) by lia. rewrite base_pow_split by lia. rewrite <- (Z.add_0_r (nf * _)), <- Es. ring.
        + unfold buf1. rewrite zn_blit by (rewrite ?zlen_repeat; clear - R1 Hls Hl Ln; lia). replace ((lsh <=? lnz + 1 + lsh) && (lnz + 1 + lsh <? lsh + zlen nl)) with false by lia. apply zn_repeat0.
      - assert (c = 0) as -> by lia. exists buf1. split; [reflexivity|]. split; [exact X1|]. split; [exact X2|]. rewrite X3. f_equal. lia. }
    destruct EC as (buf1' & EC & Y1 & Y2 & Y3). rewrite EC. mret.
    destruct (norm_units_ok m nf ltac:(lia) lb 0 Ub ltac:(unfold base; lia)) as (nr & c' & E' & Un' & Ln' & Hc' & Es'). rewrite E'. mret. rewrite Lb in *.
    rewrite write_slice_ok by (rewrite ?zlen_repeat; clear - Ln' R1 R2 Hls Hrs Hl Hr; lia). mret. destruct (B nr rsh rnz Un' Hrs Hr Ln' ltac:(lia)) as (V1 & V2 & V3).
    assert (c' = 0). { pose proof (sg_nonneg nr 0 (rnz + 1) Un'). pose proof (pow_base_pos (rnz + 1) ltac:(lia)). clear - Es' Hb H H0 Hc'. nia. }
    subst c'. assert (EA : debug_assert m (0 =? 0) = Ret tt) by (destruct m; reflexivity). rewrite EA. mret.
    do 2 eexists. split; [reflexivity|]. split; [exact Y1|]. split; [exact Y2|]. split; [exact Y3|]. split; [exact V1|]. split; [exact V2|]. rewrite (B' nr Un' Ln'). f_equal. lia.
Qed.

(** From the choice between short and long division, [ge] being the comparison of the leading units. *)
Definition rem_short (m : build) (a b : list Z) (lnz : Z) (ge : bool) (lsh rsh : Z) : outcome (list Z * Z) :=
  let shift := if ge then 0 else -1 in
  let ls := firstn (Z.to_nat (lnz + 1)) a in
  let buf_len := lsh + lnz + 1 in
  buf <- write_slice (repeat 0 18) lsh buf_len ls ;;
  rem <- (if shift <? 0 then Ret (zn a lnz) else Ret 0) ;;
  let i := buf_len - 1 + shift in
  let n := Z.to_nat (i - (0 + rsh) + 1) in
  rem <- short_rem m n buf (zn b 0) rem i ;;
  let i := i - Z.of_nat n in
  '(r, nz) <-
    (if rem >? 0 then
       r <- set zero_units (i + 1) (as_i32 rem) ;; Ret (r, i + 1)
     else Ret (zero_units, -1)) ;;
  copy_rest (Z.to_nat (i + 1)) buf r nz.

Definition rem_long (m : build) (a b : list Z) (lnz rnz : Z) (ge : bool) (lsh rsh : Z) : outcome (list Z * Z) :=
  let shift := if ge then 0 else -1 in
  let b1len := lnz + 1 + lsh in
  let b2len := rnz + 1 + rsh in
  t <- i64 m (zn b rnz + 1) ;;
  nf <- i64_div m UNIT t ;;
  '(buf1, buf2) <- rem_bufs m nf (firstn (Z.to_nat (lnz + 1)) a) (firstn (Z.to_nat (rnz + 1)) b) lsh rsh b1len b2len ;;
  d0 <- get buf2 (rnz + rsh) ;;
  d1 <- get buf2 (rnz + rsh - 1) ;;
  let i := b1len + shift - 1 in
  b2 <- slice buf2 0 b2len ;;
  buf1 <- long_rem m (Z.to_nat (i - (b2len - 1) + 1)) b2 b2len d0 d1 buf1 i ;;
  x <- (match m with Debug => get buf1 b1len | Release => Ret 0 end) ;;
  _ <- debug_assert m (x =? 0) ;;
  '(r, rem, nz) <- denorm m (Z.to_nat b1len) buf1 nf 0 zero_units (-1) ;;
  _ <- debug_assert m (rem =? 0) ;;
  Ret (r, nz).

Definition lsh (a b : fd) : Z := Z.max 0 (fu b - fu a).

Lemma bind_bind A B C (o : outcome A) (k : A -> outcome B) (h : B -> outcome C) : bind (bind o k) h = bind o (fun x => bind (k x) h).
Proof. destruct o; reflexivity. Qed.

Lemma rem_plan_all a b : wf a -> wf b -> magnitude a <> 0 -> magnitude b <> 0 ->
  exists lnz rnz, lead2 a b lnz rnz /\ forall m res,
  rem_abs m a b res =
    match Z.compare (amag a) (amag b) with
    | Lt => if fu b >? fu a
            then r <- write_slice zero_units (fu b - fu a) (iu a + fu b) (firstn (Z.to_nat (fu a + iu a)) (fd_lsu a)) ;; Ret (Ok tt, mkfd (int_digits a) (frac_digits b) r)
            else r <- write_slice zero_units 0 (fu a + iu a) (firstn (Z.to_nat (fu a + iu a)) (fd_lsu a)) ;; Ret (Ok tt, mkfd (int_digits a) (Z.max (frac_digits a) (frac_digits b)) r)
    | Eq => Ret (Ok tt, zero)
    | Gt => '(r, nz) <- (if rnz =? 0 then rem_short m (fd_lsu a) (fd_lsu b) lnz (qge a b lnz rnz) (lsh a b) (lsh b a)
                         else rem_long m (fd_lsu a) (fd_lsu b) lnz rnz (qge a b lnz rnz) (lsh a b) (lsh b a)) ;;
            rem_finish m r nz (units_for (Z.max (frac_digits a) (frac_digits b))) (Z.max (frac_digits a) (frac_digits b))
    end.
Proof.
  intros Ha Hb Na Nb. pose proof (wf_counts a Ha) as CA. pose proof (wf_counts b Hb) as CB.
  pose proof (wf_zlen a Ha) as LA. pose proof (wf_zlen b Hb) as LB.
  destruct (lead2_ex a b Ha Hb Na Nb) as (lnz & rnz & EL & ER & L). exists lnz, rnz. split; [exact L|]. intros m res.
  pose proof (qge_spec a b lnz rnz Ha Hb L) as GE.
  pose proof (l2_a0 a b lnz rnz L) as A0. pose proof (l2_b0 a b lnz rnz L) as B0.
  unfold rem_abs. cbv zeta. rewrite !intg_ok. unfold frac. fold (frac_digits a) (frac_digits b).
  rewrite !get_units_ok by lia. mret. mret. mret. mret. fold (iu a) (fu a) (iu b) (fu b).
  rewrite ER. mret. replace (rnz <? 0) with false by lia. rewrite EL. mret. replace (lnz <? 0) with false by lia.
  rewrite cmp_abs_lsu_ok by (try apply wf_uok; try assumption; lia). mret.
  replace (sg (fd_lsu a) 0 (iu a + fu a) * base ^ (9 - fu a)) with (amag a) by (unfold amag; rewrite magnitude_sg; reflexivity).
  replace (sg (fd_lsu b) 0 (iu b + fu b) * base ^ (9 - fu b)) with (amag b) by (unfold amag; rewrite magnitude_sg; reflexivity).
  destruct (amag a ?= amag b).
  - reflexivity.
  - rewrite slice_ok by lia. mret. replace (Z.to_nat (fu a + iu a - 0)) with (Z.to_nat (fu a + iu a)) by lia. reflexivity.
  - mret. rewrite !slice_ok by lia. mret. mret. cbn [skipn Z.to_nat]. rewrite !Z.sub_0_r. rewrite GE.
    replace (if fu a <? fu b then fu b - fu a else 0) with (lsh a b) by (unfold lsh; destruct (Z.ltb_spec (fu a) (fu b)); lia).
    replace (if fu a <? fu b then 0 else fu a - fu b) with (lsh b a) by (unfold lsh; destruct (Z.ltb_spec (fu a) (fu b)); lia).
    destruct (Z.eqb_spec rnz 0) as [R|R].
    + subst rnz. unfold rem_short. cbv zeta. rewrite !get_ok by lia. mret. rewrite ?bind_bind.
      destruct (write_slice _ _ _ _) as [buf|]; [|reflexivity]. mret. mret. rewrite ?bind_bind.
      destruct (if (if qge a b lnz 0 then 0 else -1) <? 0 then Ret (zn (fd_lsu a) lnz) else Ret 0) as [rem|]; [|reflexivity]. mret. mret. rewrite ?bind_bind.
      destruct (short_rem _ _ _ _ _ _) as [rm|]; [|reflexivity]. mret. mret. rewrite ?bind_bind.
      change (fd_lsu (set_zero res)) with zero_units.
      destruct (if rm >? 0 then _ else _) as [[r nz]|]; reflexivity.
    + unfold rem_long. cbv zeta. rewrite !get_ok by lia. mret. rewrite ?bind_bind.
      destruct (i64 m (zn (fd_lsu b) rnz + 1)) as [t|]; [|reflexivity]. mret. mret. rewrite ?bind_bind.
      destruct (i64_div m UNIT t) as [nf|]; [|reflexivity]. mret. mret. rewrite ?bind_bind.
      fold (rem_bufs m nf (firstn (Z.to_nat (lnz + 1)) (fd_lsu a)) (firstn (Z.to_nat (rnz + 1)) (fd_lsu b)) (lsh a b) (lsh b a) (lnz + 1 + lsh a b) (rnz + 1 + lsh b a)).
      destruct (rem_bufs _ _ _ _ _ _ _ _) as [[buf1 buf2]|]; [|reflexivity]. mret. mret. rewrite ?bind_bind.
      destruct (get buf2 (rnz + lsh b a)) as [d0|]; [|reflexivity]. mret. mret. rewrite ?bind_bind.
      destruct (get buf2 (rnz + lsh b a - 1)) as [d1|]; [|reflexivity]. mret. mret. rewrite ?bind_bind.
      destruct (slice buf2 0 (rnz + 1 + lsh b a)) as [b2|]; [|reflexivity]. mret. mret. rewrite ?bind_bind.
      destruct (long_rem _ _ _ _ _ _ _ _) as [bf|]; [|reflexivity]. mret. mret. rewrite ?bind_bind.
      destruct (match m with Debug => _ | Release => _ end) as [x|]; [|reflexivity]. mret. mret. rewrite ?bind_bind.
      destruct (debug_assert m (x =? 0)) as [u|]; [|reflexivity]. mret. mret. rewrite ?bind_bind.
      change (fd_lsu (set_zero res)) with zero_units.
      destruct (denorm _ _ _ _ _ _ _) as [[[r rm] nz]|]; [|reflexivity]. mret. mret. rewrite ?bind_bind.
      destruct (debug_assert m (rm =? 0)); reflexivity.
Qed.
Lemma rem_plan m a b res : wf a -> wf b -> magnitude a <> 0 -> magnitude b <> 0 ->
  exists lnz rnz, lead2 a b lnz rnz /\
  rem_abs m a b res =
    match Z.compare (amag a) (amag b) with
    | Lt => if fu b >? fu a
            then r <- write_slice zero_units (fu b - fu a) (iu a + fu b) (firstn (Z.to_nat (fu a + iu a)) (fd_lsu a)) ;; Ret (Ok tt, mkfd (int_digits a) (frac_digits b) r)
            else r <- write_slice zero_units 0 (fu a + iu a) (firstn (Z.to_nat (fu a + iu a)) (fd_lsu a)) ;; Ret (Ok tt, mkfd (int_digits a) (Z.max (frac_digits a) (frac_digits b)) r)
    | Eq => Ret (Ok tt, zero)
    | Gt => '(r, nz) <- (if rnz =? 0 then rem_short m (fd_lsu a) (fd_lsu b) lnz (qge a b lnz rnz) (lsh a b) (lsh b a)
                         else rem_long m (fd_lsu a) (fd_lsu b) lnz rnz (qge a b lnz rnz) (lsh a b) (lsh b a)) ;;
            rem_finish m r nz (units_for (Z.max (frac_digits a) (frac_digits b))) (Z.max (frac_digits a) (frac_digits b))
    end.
Proof.
  intros Ha Hb Na Nb. destruct (rem_plan_all a b Ha Hb Na Nb) as (lnz & rnz & L & H). exists lnz, rnz. split; [exact L|apply H].
Qed.
