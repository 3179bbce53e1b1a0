(** * [div_abs]: the units of the result, and the quotient. *)
From Coq Require Import ZArith List Bool Lia QArith.
From Coq Require Import ZifyBool ZifyNat.
From Verif Require Import Rust Tables Model_Base Model_Cmp Model_Arith Spec Lib Cmp AddSub Sign Basics MulAbs Mul DivBasics Div Div2.
Import ListNotations.
Open Scope Z_scope.
Ltac Zify.zify_post_hook ::= Z.div_mod_to_equations.

Lemma lz_bound x : 1 <= x -> 0 <= unit_leading_zeroes x <= 8.
Proof. intros H. unfold unit_leading_zeroes. repeat match goal with |- context [if x >=? ?c then _ else _] => destruct (Z.geb_spec x c); [lia|] end. lia. Qed.
Lemma lz_anti x y : x <= y -> unit_leading_zeroes y <= unit_leading_zeroes x.
Proof.
  intros H. unfold unit_leading_zeroes.
  repeat match goal with |- context [if y >=? ?c then _ else _] => destruct (Z.geb_spec y c); [
    repeat match goal with |- context [if x >=? ?c then _ else _] => destruct (Z.geb_spec x c); [lia|] end; lia|] end.
  repeat match goal with |- context [if x >=? ?c then _ else _] => destruct (Z.geb_spec x c); [lia|] end. lia.
Qed.

(** Step D1, normalization. *)
Definition norm_bufs (m : build) (nf : Z) (ls rs : list Z) (res_units lnz rnz : Z) : outcome (list Z * list Z) :=
  if nf =? 1 then
     buf1 <- write_slice (repeat 0 18) res_units (res_units + lnz + 1) ls ;;
     buf2 <- write_slice (repeat 0 9) 0 (rnz + 1) rs ;;
     Ret (buf1, buf2)
  else
     let buf1_end := res_units + lnz + 1 in
     '(nl, carry) <- norm_units m nf ls 0 ;;
     buf1 <- write_slice (repeat 0 18) res_units buf1_end nl ;;
     '(buf1, carry) <-
       (if carry >? 0 then
          buf1 <- set buf1 buf1_end (as_i32 carry) ;; Ret (buf1, 0)
        else Ret (buf1, carry)) ;;
     '(nr, carry) <- norm_units m nf rs carry ;;
     buf2 <- write_slice (repeat 0 9) 0 (rnz + 1) nr ;;
     _ <- debug_assert m (carry =? 0) ;;
     Ret (buf1, buf2).

(** The tail of [div_abs], from the choice between short and long division. *)
Definition div_body (m : build) (a b r0 : list Z) (lnz rnz : Z) (ge : bool) (res_units res_frac_units res_intg n : Z)
  : outcome (result unit * fd) :=
  let dividend_shift := if ge then 0 else -1 in
  let finish (r : list Z) : outcome (result unit * fd) :=
        Ret (Ok tt, mkfd (as_i8 res_intg) (as_i8 (res_frac_units * DIGITS_PER_UNIT)) r) in
  if rnz =? 0 then
    d <- Ret (zn b 0) ;;
    rem <- (if dividend_shift <? 0 then Ret (zn a lnz) else Ret 0) ;;
    r <- short_div m (Z.to_nat n) a d rem (lnz + dividend_shift) r0 ;;
    finish r
  else
    let rtop := zn b rnz in
    let ls := firstn (Z.to_nat (lnz + 1)) a in
    let rs := firstn (Z.to_nat (rnz + 1)) b in
    t <- i64 m (rtop + 1) ;;
    nf <- i64_div m UNIT t ;;
    '(buf1, buf2) <- norm_bufs m nf ls rs res_units lnz rnz ;;
    d0 <- get buf2 rnz ;;
    d1 <- get buf2 (rnz - 1) ;;
    let b2 := firstn (Z.to_nat (rnz + 1)) buf2 in
    r <- long_div m (Z.to_nat n) b2 rnz d0 d1 buf1 (res_units + lnz + dividend_shift) r0 ;;
    finish r.

(** What the leading units are. *)
Record lead2 (a b : fd) (lnz rnz : Z) : Prop := mklead2 {
  l2_a : leads (fd_lsu a) (iu a + fu a) lnz;
  l2_b : leads (fd_lsu b) (iu b + fu b) rnz;
  l2_a0 : 0 <= lnz < iu a + fu a; l2_b0 : 0 <= rnz < iu b + fu b;
  l2_am : magnitude a = sg (fd_lsu a) 0 (lnz + 1);
  l2_bm : magnitude b = sg (fd_lsu b) 0 (rnz + 1);
  l2_at : base ^ lnz * zn (fd_lsu a) lnz <= magnitude a < base ^ lnz * (zn (fd_lsu a) lnz + 1);
  l2_bt : base ^ rnz * zn (fd_lsu b) rnz <= magnitude b < base ^ rnz * (zn (fd_lsu b) rnz + 1);
  l2_ap : 1 <= zn (fd_lsu a) lnz < base; l2_bp : 1 <= zn (fd_lsu b) rnz < base }.

Lemma top_bounds l k : uok l -> 0 <= k -> base ^ k * zn l k <= sg l 0 (k + 1) < base ^ k * (zn l k + 1).
Proof.
  intros U K. rewrite sg_snoc by lia. replace (0 + k) with k by lia. pose proof (sg_bound l 0 k U K). lia.
Qed.

Lemma lead2_ex a b : wf a -> wf b -> magnitude a <> 0 -> magnitude b <> 0 -> exists lnz rnz,
  lead_non_zero (Z.to_nat (iu a + fu a)) (fd_lsu a) = Ret lnz /\ lead_non_zero (Z.to_nat (iu b + fu b)) (fd_lsu b) = Ret rnz /\
  lead2 a b lnz rnz.
Proof.
  intros Ha Hb Na Nb. pose proof (wf_counts a Ha). pose proof (wf_counts b Hb). pose proof (wf_zlen a Ha). pose proof (wf_zlen b Hb).
  pose proof (wf_uok a Ha) as Ua. pose proof (wf_uok b Hb) as Ub.
  destruct (lead_ok (fd_lsu a) (iu a + fu a) Ua ltac:(lia)) as (lnz & EL & LL).
  destruct (lead_ok (fd_lsu b) (iu b + fu b) Ub ltac:(lia)) as (rnz & ER & LR).
  exists lnz, rnz. split; [exact EL|]. split; [exact ER|].
  rewrite magnitude_sg in Na, Nb.
  pose proof (leads_neg (fd_lsu a) (iu a + fu a) lnz Ua ltac:(lia) LL) as GL. pose proof (leads_neg (fd_lsu b) (iu b + fu b) rnz Ub ltac:(lia) LR) as GR.
  assert (0 <= lnz) by (destruct (Z.lt_ge_cases lnz 0); [exfalso; tauto|lia]). assert (0 <= rnz) by (destruct (Z.lt_ge_cases rnz 0); [exfalso; tauto|lia]).
  pose proof (uok_zn (fd_lsu a) lnz Ua). pose proof (uok_zn (fd_lsu b) rnz Ub).
  assert (EA : magnitude a = sg (fd_lsu a) 0 (lnz + 1)) by (rewrite magnitude_sg; apply leads_sg; auto; lia).
  assert (EB : magnitude b = sg (fd_lsu b) 0 (rnz + 1)) by (rewrite magnitude_sg; apply leads_sg; auto; lia).
  destruct LL as ([?|[LL1 LL2]] & LL3); [lia|]. destruct LR as ([?|[LR1 LR2]] & LR3); [lia|].
  constructor; auto; try lia; try (split; [right; split; assumption|assumption]).
  - rewrite EA. apply top_bounds; assumption.
  - rewrite EB. apply top_bounds; assumption.
Qed.

Definition qk (a b : fd) (lnz rnz : Z) : Z := (lnz - fu a) - (rnz - fu b).
Definition qge (a b : fd) (lnz rnz : Z) : bool := magnitude a * base ^ rnz >=? magnitude b * base ^ lnz.
Definition b2z (b : bool) : Z := if b then 1 else 0.
(** The integral units, and the fractional units, of a quotient. *)
Definition qiu (a b : fd) (lnz rnz : Z) : Z := Z.max 0 (qk a b lnz rnz + b2z (qge a b lnz rnz)).
Definition qfu (a b : fd) (incr lnz rnz : Z) : Z :=
  Z.min 4 (Z.min (9 - qiu a b lnz rnz) (Z.max (fu a + fu b) (units_for (frac_digits a + frac_digits b + incr)))).
Definition qig (a b : fd) (lnz rnz : Z) : Z :=
  Z.max 0 (9 * qk a b lnz rnz + unit_leading_zeroes (zn (fd_lsu b) rnz) - unit_leading_zeroes (zn (fd_lsu a) lnz) + b2z (qge a b lnz rnz)).

Lemma qge_spec a b lnz rnz : wf a -> wf b -> lead2 a b lnz rnz ->
  units_greater_equal (firstn (Z.to_nat (lnz + 1)) (fd_lsu a)) (firstn (Z.to_nat (rnz + 1)) (fd_lsu b)) = qge a b lnz rnz.
Proof.
  intros Ha Hb L. pose proof (wf_uok a Ha) as Ua. pose proof (wf_uok b Hb) as Ub. pose proof (wf_zlen a Ha). pose proof (wf_zlen b Hb).
  pose proof (wf_counts a Ha). pose proof (wf_counts b Hb). destruct L.
  rewrite uge_ok by (apply Forall_firstn; assumption). rewrite !zlen_firstn.
  replace (Z.min (Z.of_nat (Z.to_nat (lnz + 1))) (zlen (fd_lsu a))) with (lnz + 1) by lia.
  replace (Z.min (Z.of_nat (Z.to_nat (rnz + 1))) (zlen (fd_lsu b))) with (rnz + 1) by lia.
  assert (E : forall l k, 0 <= k -> sg (firstn (Z.to_nat k) l) 0 k = sg l 0 k).
  { intros l k K. apply sg_ext. intros j J. rewrite zn_firstn by lia. replace (0 + j <? Z.of_nat (Z.to_nat k)) with true by lia. reflexivity. }
  rewrite !E by lia. rewrite <- l2_am0, <- l2_bm0. unfold qge. rewrite (geb_mul_r (magnitude a * base ^ rnz) _ base) by reflexivity.
  rewrite !base_S by lia. f_equal; ring.
Qed.

(** The two leading units and the comparison. *)
Lemma ge_tops a b lnz rnz : lead2 a b lnz rnz ->
  if qge a b lnz rnz then zn (fd_lsu b) rnz <= zn (fd_lsu a) lnz else zn (fd_lsu a) lnz <= zn (fd_lsu b) rnz.
Proof.
  intros [_ _ ? ? _ _ TA TB PA PB]. unfold qge. pose proof (pow_base_pos lnz ltac:(lia)) as P1. pose proof (pow_base_pos rnz ltac:(lia)) as P2.
  set (P := base ^ lnz) in *. set (R := base ^ rnz) in *. set (x := zn (fd_lsu a) lnz) in *. set (y := zn (fd_lsu b) rnz) in *. clearbody P R x y.
  set (A := magnitude a) in *. set (B := magnitude b) in *. clearbody A B.
  rewrite Z.geb_leb. destruct (Z.leb_spec (B * P) (A * R)).
  - assert (R * y * P < P * (x + 1) * R) by nia. assert (y < x + 1) by nia. lia.
  - assert (P * x * R < R * (y + 1) * P) by nia. assert (x < y + 1) by nia. lia.
Qed.
Lemma quotient_lt a b lnz rnz : lead2 a b lnz rnz ->
  magnitude a * base ^ rnz < magnitude b * base ^ (lnz + b2z (qge a b lnz rnz)).
Proof.
  intros [_ _ ? ? _ _ TA TB PA PB]. unfold qge. rewrite Z.geb_leb. destruct (Z.leb_spec (magnitude b * base ^ lnz) (magnitude a * base ^ rnz)); cbn [b2z].
  - rewrite base_S by lia. pose proof (pow_base_pos lnz ltac:(lia)). pose proof (pow_base_pos rnz ltac:(lia)).
    assert (magnitude a < base ^ lnz * base) by nia. assert (base ^ rnz <= magnitude b) by nia.
    assert (magnitude a * base ^ rnz < base ^ lnz * base * base ^ rnz) by nia.
    assert (base ^ lnz * base * base ^ rnz <= base ^ lnz * base * magnitude b) by (apply Z.mul_le_mono_nonneg_l; unfold base in *; lia). lia.
  - rewrite Z.add_0_r. assumption.
Qed.
Lemma quotient_ge a b lnz rnz : lead2 a b lnz rnz ->
  magnitude b * base ^ (lnz + b2z (qge a b lnz rnz)) <= magnitude a * base ^ (rnz + 1).
Proof.
  intros [_ _ ? ? _ _ TA TB PA PB]. unfold qge. rewrite Z.geb_leb. destruct (Z.leb_spec (magnitude b * base ^ lnz) (magnitude a * base ^ rnz)); cbn [b2z].
  - rewrite !base_S by lia. rewrite !(Z.mul_assoc _ base), !(Z.mul_comm _ base), <- !Z.mul_assoc. apply Z.mul_le_mono_nonneg_l; [unfold base; lia|assumption].
  - rewrite Z.add_0_r. rewrite base_S by lia. pose proof (pow_base_pos lnz ltac:(lia)). pose proof (pow_base_pos rnz ltac:(lia)).
    assert (base ^ lnz <= magnitude a) by nia. assert (magnitude b <= base ^ rnz * base) by nia.
    assert (magnitude b * base ^ lnz <= base ^ rnz * base * base ^ lnz) by nia.
    assert (base ^ rnz * base * base ^ lnz <= base ^ rnz * base * magnitude a) by (apply Z.mul_le_mono_nonneg_l; unfold base in *; lia). lia.
Qed.

(** The counts of digits, whatever they are. *)
Definition qgz (a b : fd) (lnz rnz : Z) : Z :=
  9 * qk a b lnz rnz + unit_leading_zeroes (zn (fd_lsu b) rnz) - unit_leading_zeroes (zn (fd_lsu a) lnz) + b2z (qge a b lnz rnz).
Lemma qcounts_any a b lnz rnz : wf a -> wf b -> lead2 a b lnz rnz ->
  let K := qk a b lnz rnz in let g := b2z (qge a b lnz rnz) in
  let ig := 9 * K + unit_leading_zeroes (zn (fd_lsu b) rnz) - unit_leading_zeroes (zn (fd_lsu a) lnz) + g in
  (0 < ig -> units_for ig = K + g /\ 1 <= K + g) /\ (ig <= 0 -> K + g <= 0 /\ units_for (1 - ig) = 1 - K - g) /\ -163 <= ig <= 163.
Proof.
  intros Ha Hb L K g ig. pose proof (ge_tops a b lnz rnz L) as T. pose proof (wf_counts a Ha) as CA. pose proof (wf_counts b Hb) as CB.
  pose proof (lz_bound _ (proj1 (l2_ap a b lnz rnz L))) as B1. pose proof (lz_bound _ (proj1 (l2_bp a b lnz rnz L))) as B2.
  pose proof (l2_a0 a b lnz rnz L) as A0. pose proof (l2_b0 a b lnz rnz L) as B0.
  assert (HK : K <= iu a - 1 + fu b) by (unfold K, qk; lia). assert (HK' : - K <= fu a + iu b - 1) by (unfold K, qk; lia).
  destruct (qge a b lnz rnz); apply lz_anti in T; subst g; cbn [b2z] in *; clearbody K; subst ig; unfold units_for; clear - T B1 B2 HK HK' CA CB; lia.
Qed.

(** The counts stay within the range of an i8. *)
Definition room (a b : fd) (incr lnz rnz : Z) : Prop :=
  fu a + fu b <= 13 /\ frac_digits a + frac_digits b + incr <= 119 /\ -118 <= qgz a b lnz rnz <= 119.
Lemma div_room_room a b incr lnz rnz : wf a -> wf b -> lead2 a b lnz rnz -> div_room a b incr -> room a b incr lnz rnz.
Proof.
  intros Ha Hb L (R1 & R2 & R3 & R4). split; [exact R3|]. split; [exact R4|]. unfold qgz. pose proof (ge_tops a b lnz rnz L) as T.
  pose proof (lz_bound _ (proj1 (l2_ap a b lnz rnz L))) as B1. pose proof (lz_bound _ (proj1 (l2_bp a b lnz rnz L))) as B2.
  pose proof (l2_a0 a b lnz rnz L) as A0. pose proof (l2_b0 a b lnz rnz L) as B0.
  assert (HK : qk a b lnz rnz <= iu a - 1 + fu b) by (unfold qk; lia). assert (HK' : - qk a b lnz rnz <= fu a + iu b - 1) by (unfold qk; lia).
  set (K := qk a b lnz rnz) in *. clearbody K.
  destruct (qge a b lnz rnz); apply lz_anti in T; cbn [b2z] in *; clear - T B1 B2 HK HK' R1 R2; lia.
Qed.

Lemma count_i8 m z u : 0 <= z <= 247 -> get_units m (as_i8 z) = Ret u -> z <= 119 /\ u = units_for z.
Proof.
  intros H E. destruct (Z.le_gt_cases z 119) as [L|L].
  - split; [exact L|]. rewrite as_i8_id in E by lia. rewrite get_units_ok in E by lia. injection E as <-. reflexivity.
  - exfalso. destruct (Z.le_gt_cases z 127) as [L2|L2].
    + rewrite as_i8_id in E by lia. rewrite get_units_total in E by lia. replace (z <=? 119) with false in E by lia. destruct m; discriminate.
    + replace (as_i8 z) with (z - 256) in E. 2: { unfold as_i8. clear - H L2. lia. }
      rewrite get_units_neg in E by lia. discriminate.
Qed.

Lemma div_plan m a b res incr : wf a -> wf b -> magnitude a <> 0 -> magnitude b <> 0 -> 0 <= incr -> sane_request a b incr ->
  exists lnz rnz, lead2 a b lnz rnz /\
  (room a b incr lnz rnz -> div_abs m a b res incr =
    if 9 <? qk a b lnz rnz + b2z (qge a b lnz rnz) then Ret (Err Overflow, zero)
    else div_body m (fd_lsu a) (fd_lsu b) zero_units lnz rnz (qge a b lnz rnz)
           (qiu a b lnz rnz + qfu a b incr lnz rnz) (qfu a b incr lnz rnz) (qig a b lnz rnz)
           (qfu a b incr lnz rnz + qk a b lnz rnz + b2z (qge a b lnz rnz))) /\
  (forall o, div_abs m a b res incr = Ret o -> room a b incr lnz rnz).
Proof.
  intros Ha Hb Na Nb Hi Sn. pose proof (wf_counts a Ha) as CA. pose proof (wf_counts b Hb) as CB.
  pose proof (wf_zlen a Ha) as LA. pose proof (wf_zlen b Hb) as LB.
  destruct (lead2_ex a b Ha Hb Na Nb) as (lnz & rnz & EL & ER & L). exists lnz, rnz. split; [exact L|].
  pose proof (qcounts_any a b lnz rnz Ha Hb L) as QC. cbv zeta in QC.
  pose proof (qge_spec a b lnz rnz Ha Hb L) as GE. unfold sane_request in Sn.
  pose proof (lz_bound _ (proj1 (l2_ap a b lnz rnz L))) as B1. pose proof (lz_bound _ (proj1 (l2_bp a b lnz rnz L))) as B2.
  pose proof (l2_a0 a b lnz rnz L) as A0. pose proof (l2_b0 a b lnz rnz L) as B0.
  unfold div_abs. cbv zeta. rewrite !intg_ok. unfold frac. fold (frac_digits a) (frac_digits b).
  rewrite !get_units_ok by lia. mret. mret. mret. mret. fold (iu a) (fu a) (iu b) (fu b).
  rewrite ER. mret. replace (rnz <? 0) with false by lia. rewrite EL. mret. replace (lnz <? 0) with false by lia.
  rewrite !get_ok by lia. mret. mret. change DIGITS_PER_UNIT with 9.
  set (slack := fu a * 9 - frac_digits a + fu b * 9 - frac_digits b).
  assert (HS : 0 <= slack <= 16) by (unfold slack, fu, units_for; lia).
  rewrite isize_ok by lia. mret.
  rewrite isize_ok by (destruct (incr - slack <? 0) eqn:X; lia). mret.
  set (f := fu a * 9 + fu b * 9 + (if incr - slack <? 0 then 0 else incr - slack)).
  assert (Hf : f = Z.max (9 * (fu a + fu b)) (frac_digits a + frac_digits b + incr)).
  { unfold f. destruct (Z.ltb_spec (incr - slack) 0); unfold slack in *; lia. }
  assert (Bf : 0 <= f <= 247) by lia. clearbody f. clear HS. clearbody slack.
  rewrite !slice_ok by lia. unfold room, qgz.
  set (g := qge a b lnz rnz) in *. set (K := qk a b lnz rnz) in *.
  set (zr := unit_leading_zeroes (zn (fd_lsu b) rnz)) in *. set (zl := unit_leading_zeroes (zn (fd_lsu a) lnz)) in *.
  set (ig := 9 * K + zr - zl + b2z g) in *.
  assert (EI : (if g then (lnz + 1) * 9 - zl - fu a * 9 - ((rnz + 1) * 9 - zr - fu b * 9) + 1
           else (lnz + 1) * 9 - zl - fu a * 9 - ((rnz + 1) * 9 - zr - fu b * 9)) = ig)
    by (unfold ig, K, qk, b2z; destruct g; lia).
  split.
  - intros (R3 & R4 & RI). assert (Bf' : 0 <= f <= 119) by lia. clear Bf.
    rewrite as_i8_id by lia. rewrite get_units_ok by lia. mret. mret. mret. cbn [skipn Z.to_nat]. rewrite !Z.sub_0_r. rewrite GE.
    rewrite EI.
    assert (EF : (if units_for f >? MAX_FRAC_UNITS then MAX_FRAC_UNITS else units_for f) =
      Z.min 4 (Z.max (fu a + fu b) (units_for (frac_digits a + frac_digits b + incr)))).
    { change MAX_FRAC_UNITS with 4. rewrite Hf, units_for_max. replace (9 * (fu a + fu b)) with ((fu a + fu b) * 9) by lia.
      rewrite units_for_mul. destruct (Z.gtb_spec (Z.max (fu a + fu b) (units_for (frac_digits a + frac_digits b + incr))) 4); lia. }
    rewrite EF. clear EF. set (G := Z.max (fu a + fu b) (units_for (frac_digits a + frac_digits b + incr))) in *.
    assert (HG : 0 <= G) by (unfold G; lia).
    destruct QC as (QC1 & QC2 & _). change MAX_UNITS with 9.
    unfold qiu, qfu, qig. fold K g zr zl ig. fold G. unfold qiu. fold K g. clearbody G. clear EI. clearbody ig.
    destruct (Z.gtb_spec ig 0) as [I|I].
    + destruct (QC1 I) as (U1 & U2). rewrite as_i8_id by lia. rewrite get_units_ok by lia. mret. rewrite U1.
      replace (K + b2z g >? 9) with (9 <? K + b2z g) by (rewrite Z.gtb_ltb; reflexivity).
      destruct (Z.ltb_spec 9 (K + b2z g)) as [O|O]; [mret; reflexivity|]. mret.
      replace (Z.max 0 (K + b2z g)) with (K + b2z g) by lia. replace (Z.max 0 ig) with ig by lia.
      assert (EQ : (if K + b2z g + Z.min 4 G >? 9 then 9 - (K + b2z g) else Z.min 4 G) = Z.min 4 (Z.min (9 - (K + b2z g)) G)).
      { destruct (Z.gtb_spec (K + b2z g + Z.min 4 G) 9); lia. }
      rewrite EQ. set (F := Z.min 4 (Z.min (9 - (K + b2z g)) G)). replace (F + (K + b2z g) - 1 + 1) with (F + K + b2z g) by lia.
      unfold div_body. cbv zeta. change DIGITS_PER_UNIT with 9. reflexivity.
    + destruct (QC2 ltac:(lia)) as (U1 & U2). rewrite as_i8_id by lia. rewrite get_units_ok by lia. mret. rewrite U2. mret.
      replace (9 <? K + b2z g) with false by lia.
      replace (Z.max 0 (K + b2z g)) with 0 by lia. replace (Z.max 0 ig) with 0 by lia.
      replace (Z.min 4 (Z.min (9 - 0) G)) with (Z.min 4 G) by lia. set (F := Z.min 4 G).
      replace (F - (1 - K - b2z g) + 1) with (F + K + b2z g) by lia.
      unfold div_body. cbv zeta. change DIGITS_PER_UNIT with 9. reflexivity.
  - intros o H. apply bind_inv in H. destruct H as (G0 & EG & H). apply count_i8 in EG; [|exact Bf]. destruct EG as (EG & _).
    split; [clear - EG Hf; lia|]. split; [clear - EG Hf; lia|].
    do 2 (rewrite bind_Ret in H; cbv beta in H). cbn [skipn Z.to_nat] in H. rewrite !Z.sub_0_r in H. rewrite GE, EI in H. clear EI GE.
    destruct QC as (_ & _ & QB). clearbody ig.
    destruct (Z.gtb_spec ig 0) as [I|I].
    + apply bind_inv in H. destruct H as (pl & EP & _). apply bind_inv in EP. destruct EP as (u & EU & _). apply count_i8 in EU; clear - EU QB I; lia.
    + apply bind_inv in H. destruct H as (pl & EP & _). apply bind_inv in EP. destruct EP as (u & EU & _). apply count_i8 in EU; clear - EU QB I; lia.
Qed.

Definition quotient_units (a b : fd) (F : Z) : Z := magnitude a * base ^ (F + fu b) / (magnitude b * base ^ fu a).

(** The quotient in units of the result is 0 if there is nothing to write. *)
Lemma quotient_zero a b lnz rnz F : lead2 a b lnz rnz -> wf a -> wf b -> 0 <= F -> F + qk a b lnz rnz + b2z (qge a b lnz rnz) <= 0 ->
  quotient_units a b F = 0.
Proof. unfold quotient_units.
  intros L Ha Hb HF Hn. pose proof (quotient_lt a b lnz rnz L) as Q. pose proof (wf_counts a Ha). pose proof (wf_counts b Hb).
  pose proof (magnitude_nonneg a Ha) as MA. destruct L as [_ _ ? ? _ _ TA TB PA PB].
  pose proof (pow_base_pos rnz ltac:(lia)) as P1.
  assert (MB : 0 < magnitude b) by (clear - P1 TB PB; nia). set (g := b2z (qge a b lnz rnz)) in *. assert (G : 0 <= g) by (unfold g, b2z; destruct (qge a b lnz rnz); lia).
  unfold qk in Hn. clearbody g. set (A := magnitude a) in *. set (B := magnitude b) in *. clearbody A B.
  apply Z.div_small. split; [apply Z.mul_nonneg_nonneg; [lia|apply Z.lt_le_incl, pow_base_pos; lia]|].
  apply (Z.mul_lt_mono_pos_r (base ^ rnz)); [exact P1|].
  apply Z.lt_le_trans with (B * base ^ (lnz + g) * base ^ (F + fu b)).
  - replace (A * base ^ (F + fu b) * base ^ rnz) with (A * base ^ rnz * base ^ (F + fu b)) by ring.
    apply Z.mul_lt_mono_pos_r; [apply pow_base_pos; lia|exact Q].
  - rewrite <- !Z.mul_assoc, <- !base_pow_split by lia. apply Z.mul_le_mono_nonneg_l; [lia|]. apply Z.pow_le_mono_r; [reflexivity|lia].
Qed.

(** The head of the dividend, as the loops see it. *)
Lemma head_short (l : list Z) lnz (g : bool) n : 0 <= lnz ->
  (if g then 0 else zn l lnz) * base ^ Z.of_nat n + tops l (lnz + (if g then 0 else -1)) n = tops l lnz (n + Z.to_nat (1 - b2z g)).
Proof.
  intros H. destruct g; cbn [b2z].
  - rewrite Nat.add_0_r, Z.add_0_r. reflexivity.
  - replace (n + Z.to_nat (1 - 0))%nat with (S n) by lia. cbn [tops]. unfold dg. replace (lnz <? 0) with false by lia. f_equal.
Qed.

Lemma body_short m a b lnz rnz F I ig : wf a -> wf b -> lead2 a b lnz rnz -> rnz = 0 -> 0 <= F <= 4 ->
  let n := F + qk a b lnz rnz + b2z (qge a b lnz rnz) in n <= 9 ->
  exists r, div_body m (fd_lsu a) (fd_lsu b) zero_units lnz rnz (qge a b lnz rnz) I F ig n = Ret (Ok tt, mkfd (as_i8 ig) (9 * F) r) /\
    wrote zero_units r 0 (Z.max 0 n) /\ sg r 0 (Z.max 0 n) = quotient_units a b F.
Proof.
  intros Ha Hb L R0 HF n Hn. pose proof (wf_counts a Ha) as CA. pose proof (wf_counts b Hb) as CB.
  pose proof (wf_zlen a Ha) as LA. pose proof (wf_zlen b Hb) as LB. pose proof (wf_uok a Ha) as Ua.
  pose proof (quotient_zero a b lnz rnz F L Ha Hb ltac:(lia)) as QZ.
  pose proof (quotient_lt a b lnz rnz L) as QL.
  pose proof (l2_am a b lnz rnz L) as EA. pose proof (l2_bm a b lnz rnz L) as EB. pose proof (l2_ap a b lnz rnz L) as PA. pose proof (l2_bp a b lnz rnz L) as PB.
  pose proof (ge_tops a b lnz rnz L) as GT.
  pose proof (l2_a0 a b lnz rnz L) as A0. fold n in QZ. subst rnz. set (g := qge a b lnz 0) in *. rewrite Z.pow_0_r, Z.mul_1_r in QL.
  rewrite sg_1 in EB. unfold div_body. cbn [Z.eqb]. mret.
  set (d := zn (fd_lsu b) 0) in *.
  assert (ER : (if (if g then 0 else -1) <? 0 then Ret (zn (fd_lsu a) lnz) else Ret 0) = Ret (if g then 0 else zn (fd_lsu a) lnz)) by (destruct g; reflexivity).
  rewrite ER. mret. clear ER.
  assert (HR : 0 <= (if g then 0 else zn (fd_lsu a) lnz) < d).
  { destruct g eqn:Eg; [lia|]. cbn [b2z] in QL. rewrite Z.add_0_r in QL. split; [lia|].
    assert (QL' : zn (fd_lsu a) lnz * base ^ lnz < magnitude b * base ^ lnz) by (pose proof (l2_at a b lnz 0 L) as X; clear - X QL; lia).
    apply Z.mul_lt_mono_pos_r in QL'; [clear - QL' EB; lia|apply pow_base_pos; clear - A0; lia]. }
  destruct (short_div_ok m (fd_lsu a) d Ua ltac:(clear - PB; lia) (Z.to_nat n) (if g then 0 else zn (fd_lsu a) lnz) (lnz + (if g then 0 else -1)) zero_units)
    as (r & E & W & Es); [apply uok_repeat0|rewrite zlen_zero_units; clear - Hn; clearbody n; lia|clear - A0 CA LA; destruct g; lia|exact HR|].
  rewrite E. mret. exists r. replace (as_i8 (F * DIGITS_PER_UNIT)) with (9 * F) by (change DIGITS_PER_UNIT with 9; rewrite as_i8_id by (clear - HF; lia); lia).
  split; [reflexivity|]. replace (Z.max 0 n) with (Z.of_nat (Z.to_nat n)) by (clear; lia). split; [exact W|]. rewrite Es. clear QL E W Es GT.
  destruct (Z.le_gt_cases n 0) as [N|N].
  { rewrite (QZ N). replace (Z.to_nat n) with O by lia. cbn [tops Z.of_nat]. rewrite Z.pow_0_r. rewrite Z.div_small by lia. reflexivity. }
  rewrite head_short by lia. rewrite tops_sfl by (auto; lia). rewrite sfl_div by lia. rewrite <- EA. unfold quotient_units. rewrite EB.
  apply scale_eq; try lia. unfold n, qk, b2z in *. destruct g; lia.
Qed.

(** ** Long division *)

Lemma sg_firstn l k : 0 <= k -> sg (firstn (Z.to_nat k) l) 0 k = sg l 0 k.
Proof. intros K. apply sg_ext. intros j J. rewrite zn_firstn by lia. replace (0 + j <? Z.of_nat (Z.to_nat k)) with true by lia. reflexivity. Qed.

Lemma sg_blit_zero N U s : 0 <= U -> U + zlen s <= Z.of_nat N ->
  sg (blit (repeat 0 N) U s) 0 (Z.of_nat N) = base ^ U * sg s 0 (zlen s).
Proof.
  intros HU HL. pose proof (zlen_nonneg s).
  assert (Z0 : forall k, 0 <= k -> zn (blit (repeat 0 N) U s) k = if (U <=? k) && (k <? U + zlen s) then zn s (k - U) else 0).
  { intros k Hk. rewrite zn_blit by (rewrite ?zlen_repeat; lia). destruct ((U <=? k) && (k <? U + zlen s)); [reflexivity|apply zn_repeat0]. }
  replace (Z.of_nat N) with (U + zlen s + (Z.of_nat N - U - zlen s)) by lia. rewrite (sg_app _ 0 (U + zlen s)), (sg_app _ 0 U) by lia.
  rewrite (sg_0 _ 0 U), (sg_0 _ (0 + (U + zlen s))).
  - rewrite (sg_ext _ s (0 + U) 0); [ring|]. intros k Hk. rewrite Z0 by lia. replace ((U <=? 0 + U + k) && (0 + U + k <? U + zlen s)) with true by lia. f_equal. lia.
  - intros k Hk. rewrite Z0 by lia. replace ((U <=? k) && (k <? U + zlen s)) with false by lia. reflexivity.
  - intros k Hk. rewrite Z0 by lia. replace ((U <=? k) && (k <? U + zlen s)) with false by lia. reflexivity.
Qed.
Lemma zn_blit_zero0 N s k : zlen s <= Z.of_nat N -> 0 <= k < zlen s -> zn (blit (repeat 0 N) 0 s) k = zn s k.
Proof.
  intros HL Hk. rewrite zn_blit by (rewrite ?zlen_repeat; lia). replace ((0 <=? k) && (k <? 0 + zlen s)) with true by lia. f_equal. lia.
Qed.

Lemma sg_upd_zero l i n v : 0 <= i < n -> n <= zlen l -> zn l i = 0 -> sg (upd (Z.to_nat i) v l) 0 n = sg l 0 n + base ^ i * v.
Proof.
  intros Hi Hn Hz. replace n with (i + 1 + (n - i - 1)) by lia. rewrite !(sg_app _ 0 (i + 1)), !(sg_snoc _ 0 i) by lia.
  rewrite (sg_upd_out l 0 i), (sg_upd_out l (0 + (i + 1))) by lia. replace (0 + i) with i by lia. rewrite zn_upd_eq, Hz by lia. ring.
Qed.

(** The normalization factor. *)
Lemma nf_facts y : 1 <= y < base -> let nf := base / (y + 1) in 1 <= nf < base /\ nf * (y + 1) <= base /\ base <= 3 * (nf * y).
Proof.
  intros Hy nf. pose proof (Z.div_mod base (y + 1) ltac:(lia)) as DM. pose proof (Z.mod_pos_bound base (y + 1) ltac:(lia)) as BM. fold nf in DM.
  assert (N1 : 1 <= nf) by (unfold nf; apply Z.div_le_lower_bound; lia).
  assert (N2 : nf < base) by (unfold nf; apply Z.div_lt; lia). clearbody nf. set (r := base mod (y + 1)) in *. clearbody r.
  split; [lia|]. split; [lia|]. assert (y <= nf * y) by nia. assert (nf <= nf * y) by nia. lia.
Qed.

Lemma norm_bufs_ok m nf (la lb : list Z) U lnz rnz : uok la -> uok lb -> 1 <= nf < base -> 0 <= U <= 9 -> 0 <= lnz <= 8 -> 0 <= rnz <= 8 ->
  zlen la = lnz + 1 -> zlen lb = rnz + 1 -> nf * sg lb 0 (rnz + 1) < base ^ (rnz + 1) ->
  U + lnz + 1 < 18 \/ nf * sg la 0 (lnz + 1) < base ^ (lnz + 1) ->
  exists buf1 buf2, norm_bufs m nf la lb U lnz rnz = Ret (buf1, buf2) /\ uok buf1 /\ zlen buf1 = 18 /\
    sg buf1 0 18 = base ^ U * (nf * sg la 0 (lnz + 1)) /\ uok buf2 /\ zlen buf2 = 9 /\ sg buf2 0 (rnz + 1) = nf * sg lb 0 (rnz + 1).
Proof.
  intros Ua Ub Hnf HU Hl Hr La Lb Hb Hroom. unfold norm_bufs.
  assert (B2 : forall s, uok s -> zlen s = rnz + 1 -> uok (blit (repeat 0 9) 0 s) /\ zlen (blit (repeat 0 9) 0 s) = 9 /\ sg (blit (repeat 0 9) 0 s) 0 (rnz + 1) = sg s 0 (rnz + 1)).
  { intros s Us Ls. split; [apply uok_blit; [apply uok_repeat0|exact Us]|]. split; [apply zlen_blit; [lia|rewrite zlen_repeat; lia]|].
    apply sg_ext. intros k Hk. rewrite (zn_blit_zero0 9 s) by lia. reflexivity. }
  assert (B1 : forall s, uok s -> zlen s = lnz + 1 -> uok (blit (repeat 0 18) U s) /\ zlen (blit (repeat 0 18) U s) = 18 /\ sg (blit (repeat 0 18) U s) 0 18 = base ^ U * sg s 0 (lnz + 1)).
  { intros s Us Ls. split; [apply uok_blit; [apply uok_repeat0|exact Us]|]. split; [apply zlen_blit; [lia|rewrite zlen_repeat; lia]|].
    rewrite <- Ls. apply (sg_blit_zero 18); lia. }
  destruct (Z.eqb_spec nf 1) as [N|N].
  - subst nf. rewrite !write_slice_ok by (rewrite ?zlen_repeat; lia). mret. mret. do 2 eexists. split; [reflexivity|].
    destruct (B1 la Ua La) as (X1 & X2 & X3). destruct (B2 lb Ub Lb) as (Y1 & Y2 & Y3).
    split; [exact X1|]. split; [exact X2|]. split; [rewrite X3; ring|]. split; [exact Y1|]. split; [exact Y2|]. rewrite Y3. ring.
  - cbv zeta. destruct (norm_units_ok m nf ltac:(lia) la 0 Ua ltac:(unfold base; lia)) as (nl & c & E & Un & Ln & Hc & Es). rewrite E. mret. rewrite La in *.
    rewrite write_slice_ok by (rewrite ?zlen_repeat; lia). mret. destruct (B1 nl Un Ln) as (X1 & X2 & X3).
    set (buf1 := blit (repeat 0 18) U nl) in *.
    assert (EC : exists buf1', (if c >? 0 then buf0 <- set buf1 (U + lnz + 1) (as_i32 c);; Ret (buf0, 0) else Ret (buf1, c)) = Ret (buf1', 0) /\
              uok buf1' /\ zlen buf1' = 18 /\ sg buf1' 0 18 = base ^ U * (nf * sg la 0 (lnz + 1))).
    { destruct (Z.gtb_spec c 0) as [C|C].
      - assert (R : U + lnz + 1 < 18).
        { destruct Hroom as [R|R]; [exact R|exfalso]. pose proof (sg_nonneg nl 0 (lnz + 1) Un). pose proof (pow_base_pos (lnz + 1) ltac:(lia)).
          clear - Es R C H H0. nia. }
        rewrite set_ok by lia. mret. rewrite as_i32_id by (clear - Hc; unfold base in *; lia). eexists. split; [reflexivity|].
        split; [apply uok_upd; [exact X1|exact Hc]|]. split; [rewrite zlen_upd; exact X2|].
        rewrite sg_upd_zero; [|lia|lia|].
        + rewrite X3. replace (U + lnz + 1) with (U + (lnz + 1)) by lia. rewrite base_pow_split by lia. rewrite <- (Z.add_0_r (nf * _)), <- Es. ring.
        + unfold buf1. rewrite zn_blit by (rewrite ?zlen_repeat; lia). replace ((U <=? U + lnz + 1) && (U + lnz + 1 <? U + zlen nl)) with false by lia. apply zn_repeat0.
      - assert (c = 0) as -> by lia. exists buf1. split; [reflexivity|]. split; [exact X1|]. split; [exact X2|]. rewrite X3. f_equal. lia. }
    destruct EC as (buf1' & EC & Y1 & Y2 & Y3). rewrite EC. mret.
    destruct (norm_units_ok m nf ltac:(lia) lb 0 Ub ltac:(unfold base; lia)) as (nr & c' & E' & Un' & Ln' & Hc' & Es'). rewrite E'. mret. rewrite Lb in *.
    rewrite write_slice_ok by (rewrite ?zlen_repeat; lia). mret. destruct (B2 nr Un' Ln') as (V1 & V2 & V3).
    assert (c' = 0). { pose proof (sg_nonneg nr 0 (rnz + 1) Un'). pose proof (pow_base_pos (rnz + 1) ltac:(lia)). clear - Es' Hb H H0 Hc'. nia. }
    subst c'. assert (EA : debug_assert m (0 =? 0) = Ret tt) by (destruct m; reflexivity). rewrite EA. mret.
    do 2 eexists. split; [reflexivity|]. split; [exact Y1|]. split; [exact Y2|]. split; [exact Y3|]. split; [exact V1|]. split; [exact V2|]. rewrite V3. lia.
Qed.

(** The units of a normalized divisor of two significant units. *)
Lemma divisor_units (l : list Z) rnz B x k : uok l -> zlen l = 9 -> 1 <= rnz <= 8 -> sg l 0 (rnz + 1) = B -> base ^ rnz <= B ->
  B = x * base ^ k -> 0 < x -> 0 <= k -> rnz - 1 <= k ->
  firstn (Z.to_nat (rnz + 1)) l = (repeat 0 (Z.to_nat (rnz - 1)) ++ [zn l (rnz - 1); zn l rnz])%list /\
  (zn l rnz * base + zn l (rnz - 1)) * base ^ (rnz - 1) = B /\ (rnz <= k -> zn l (rnz - 1) = 0).
Proof.
  intros U L Hr EB B1 EX Hx Hk Hk1.
  assert (Z1 : forall j, 0 <= j <= k -> j <= rnz -> sg l 0 j = 0).
  { intros j Hj Hj'. assert (E : sg l 0 (rnz + 1) = sg l 0 j + base ^ j * sg l j (rnz + 1 - j)).
    { replace (rnz + 1) with (j + (rnz + 1 - j)) at 1 by lia. rewrite sg_app by lia. reflexivity. }
    pose proof (sg_bound l 0 j U ltac:(lia)) as Bj. rewrite EB, EX in E. replace k with (j + (k - j)) in E by lia. rewrite base_pow_split in E by lia.
    pose proof (pow_base_pos j ltac:(lia)) as Pj. set (P := base ^ j) in *. set (t := base ^ (k - j)) in *. set (w := sg l j (rnz + 1 - j)) in *.
    clearbody P t w. clear - E Bj Pj. assert (X : sg l 0 j = P * (x * t - w)) by lia. revert X Bj Pj. clear. generalize (sg l 0 j) (x * t - w). intros s y -> B Hp. destruct (Z.lt_trichotomy y 0) as [Y|[->|Y]]; [exfalso; assert (P * y <= P * -1) by (apply Z.mul_le_mono_nonneg_l; lia); lia|lia|exfalso; assert (P * 1 <= P * y) by (apply Z.mul_le_mono_nonneg_l; lia); lia]. }
  assert (EB' : sg l 0 (rnz + 1) = sg l 0 (rnz - 1) + base ^ (rnz - 1) * (zn l (rnz - 1) + base * zn l rnz)).
  { replace (rnz + 1) with ((rnz - 1) + 2) by lia. rewrite sg_app by lia. replace (0 + (rnz - 1)) with (rnz - 1) by lia. do 2 f_equal.
    change 2 with (1 + 1). rewrite sg_cons by lia. rewrite sg_1. do 3 f_equal. lia. }
  rewrite (Z1 (rnz - 1)) in EB' by lia.
  split; [|split].
  - apply zn_ext.
    + rewrite app_length, repeat_length, firstn_length. cbn [length]. unfold zlen in L. lia.
    + intros i Hi. rewrite zlen_firstn in Hi. rewrite zn_firstn by lia. replace (i <? Z.of_nat (Z.to_nat (rnz + 1))) with true by lia.
      rewrite zn_app by lia. rewrite zlen_repeat. rewrite Z2Nat.id by lia. destruct (Z.ltb_spec i (rnz - 1)) as [I|I].
      * rewrite zn_repeat0. apply (sg_zero_inv l 0 (rnz - 1)); [exact U|apply Z1; lia|lia].
      * assert (i = rnz - 1 \/ i = rnz) as [->| ->] by lia.
        -- replace (rnz - 1 - (rnz - 1)) with 0 by lia. reflexivity.
        -- replace (rnz - (rnz - 1)) with 1 by lia. reflexivity.
  - rewrite <- EB, EB'. ring.
  - intros K. apply (sg_zero_inv l 0 rnz); [exact U|apply Z1; lia|lia].
Qed.
