(** * What [div_abs] returns, for divisors of up to two significant units. *)
From Coq Require Import ZArith List Bool Lia QArith.
From Coq Require Import ZifyBool ZifyNat.
From Verif Require Import Rust Tables Model_Base Model_Cmp Model_Arith Spec Lib Cmp AddSub Sign Mul DivBasics Div Div2 Div3 Div4 Agree.
Import ListNotations.
Open Scope Z_scope.
Ltac Zify.zify_post_hook ::= Z.div_mod_to_equations.

Lemma write_slice_zlen l a b s x : write_slice l a b s = Ret x -> zlen x = zlen l.
Proof. intros H. apply write_slice_inv in H. destruct H as (? & ? & ? & ->). apply zlen_blit; lia. Qed.

Lemma norm_bufs_zlen m nf ls rs U lnz rnz b1 b2 : norm_bufs m nf ls rs U lnz rnz = Ret (b1, b2) -> zlen b1 = 18.
Proof.
  unfold norm_bufs. destruct (nf =? 1).
  - intros H. apply bind_inv in H. destruct H as (x & E & H). apply bind_inv in H. destruct H as (y & _ & H). injection H as <- _.
    apply write_slice_zlen in E. exact E.
  - cbv zeta. intros H. apply bind_inv in H. destruct H as ([nl c] & _ & H). apply bind_inv in H. destruct H as (x & E & H). apply write_slice_zlen in E.
    change (zlen (repeat 0 18)) with 18 in E.
    apply bind_inv in H. destruct H as ([b c'] & E' & H).
    assert (zlen b = 18).
    { destruct (c >? 0); [|injection E' as <- _; exact E]. apply bind_inv in E'. destruct E' as (y & E' & X). injection X as <- _.
      apply set_inv in E'. destruct E' as [_ ->]. rewrite zlen_upd. exact E. }
    apply bind_inv in H. destruct H as ([nr c2] & _ & H). apply bind_inv in H. destruct H as (y & _ & H). apply bind_inv in H. destruct H as (u & _ & H).
    injection H as <- _. assumption.
Qed.

(** Without room for the dividend there is a panic. *)
Lemma body_no_room m a b r0 lnz rnz U F ig n x : 1 <= rnz -> U + lnz + 1 = 18 -> 0 < n ->
  div_body m a b r0 lnz rnz true U F ig n = Ret x -> False.
Proof.
  intros R E N H. unfold div_body in H. replace (rnz =? 0) with false in H by lia. cbv zeta in H.
  apply bind_inv in H. destruct H as (t & _ & H). apply bind_inv in H. destruct H as (nf & _ & H). apply bind_inv in H. destruct H as ([b1 b2] & EB & H).
  apply norm_bufs_zlen in EB. apply bind_inv in H. destruct H as (d0 & _ & H). apply bind_inv in H. destruct H as (d1 & _ & H).
  apply bind_inv in H. destruct H as (r & H & _). destruct (Z.to_nat n) as [|n'] eqn:En; [lia|]. cbn [long_div] in H.
  apply bind_inv in H. destruct H as (q & H & _). unfold guess_qhat in H. replace (U + lnz + 0) with 17 in H by lia.
  rewrite as_usize_id in H by lia. rewrite usize_ok in H by lia. rewrite bind_Ret in H. cbv beta in H.
  rewrite get_out in H by lia. discriminate.
Qed.

(** Digits, units of the quotient [d] that [div_abs] returns. *)
Definition exp_of (a b : fd) (lnz rnz : Z) : Z := qk a b lnz rnz + b2z (qge a b lnz rnz).

Record div_result (a b : fd) (incr lnz rnz : Z) (d : fd) : Prop := mkdr {
  dr_int : int_digits d = qig a b lnz rnz;
  dr_wf : wf d; dr_clean : clean d; dr_nohidden : nohidden d; dr_pos : neg d = false;
  dr_iu : iu d = Z.max 0 (exp_of a b lnz rnz); dr_frac : frac_digits d = 9 * fu d;
  dr_fu : fu d = Z.min 4 (Z.min (9 - iu d) (Z.max (fu a + fu b) (units_for (frac_digits a + frac_digits b + incr))));
  dr_mag : magnitude d = quotient_units a b (fu d) }.


Lemma b2z_range g : 0 <= b2z g <= 1. Proof. destruct g; cbn; lia. Qed.

Lemma finish_result a b incr lnz rnz r : wf a -> wf b -> 0 <= incr -> room a b incr lnz rnz -> lead2 a b lnz rnz -> exp_of a b lnz rnz <= 9 ->
  let F := qfu a b incr lnz rnz in let n := F + qk a b lnz rnz + b2z (qge a b lnz rnz) in
  wrote zero_units r 0 (Z.max 0 n) -> sg r 0 (Z.max 0 n) = quotient_units a b F ->
  div_result a b incr lnz rnz (mkfd (as_i8 (qig a b lnz rnz)) (9 * F) r).
Proof.
  intros Ha Hb Hi Rm L He F n W E. pose proof (wf_counts a Ha) as CA. pose proof (wf_counts b Hb) as CB.
  pose proof (qcounts_any a b lnz rnz Ha Hb L) as QC. cbv zeta in QC. destruct Rm as (_ & _ & RI). unfold qgz in RI. unfold exp_of in *.
  assert (HG : 0 <= Z.max (fu a + fu b) (units_for (frac_digits a + frac_digits b + incr))) by (clear - CA CB; lia).
  set (K := qk a b lnz rnz) in *. set (g := b2z (qge a b lnz rnz)) in *.
  unfold qig in *. fold K g. set (ig := 9 * K + unit_leading_zeroes (zn (fd_lsu b) rnz) - unit_leading_zeroes (zn (fd_lsu a) lnz) + g) in *.
  assert (HF : F = Z.min 4 (Z.min (9 - Z.max 0 (K + g)) (Z.max (fu a + fu b) (units_for (frac_digits a + frac_digits b + incr))))) by reflexivity.
  clearbody F. clear L.
  assert (BF : 0 <= F <= 4) by (clear - HF HG He; lia). assert (BU : Z.max 0 (K + g) + F <= 9) by (clear - HF HG He; lia).
  assert (Hig : 0 <= Z.max 0 ig <= 119) by (clear - RI; lia).
  rewrite as_i8_id by (clear - Hig; lia). set (d := mkfd (Z.max 0 ig) (9 * F) r).
  assert (Ii : int_digits d = Z.max 0 ig) by (unfold int_digits; cbn [d fd_intg]; apply Z.mod_small; clear - Hig; lia).
  assert (Iu : iu d = Z.max 0 (K + g)).
  { unfold iu. rewrite Ii. destruct (Z.le_gt_cases ig 0) as [I|I].
    - destruct (proj1 (proj2 QC) I) as (X & _). replace (Z.max 0 ig) with 0 by (clear - I; lia). replace (Z.max 0 (K + g)) with 0 by (clear - X; lia). reflexivity.
    - destruct (proj1 QC I) as (X & Y). replace (Z.max 0 ig) with ig by (clear - I; lia). rewrite X. clear - Y. lia. }
  assert (Fd : frac_digits d = 9 * F) by reflexivity.
  assert (Fu : fu d = F) by (unfold fu; rewrite Fd; unfold units_for; clear; lia).
  assert (Zr : zlen r = 9) by (rewrite (wrote_zlen _ _ _ _ W); reflexivity).
  assert (Ur : uok r) by (apply W).
  assert (Z0 : forall k, Z.max 0 n <= k -> zn r k = 0).
  { intros k Hk. pose proof (wrote_sg _ _ _ _ k 1 W ltac:(clear - Hk; lia) ltac:(right; clear - Hk; lia)) as X. rewrite !sg_1 in X. rewrite X.
    unfold zero_units. apply zn_repeat0. }
  assert (NU : Z.max 0 n <= iu d + fu d) by (rewrite Iu, Fu; unfold n; clear - BF; lia).
  assert (WF : wf d).
  { constructor; cbn [d fd_lsu fd_intg fd_frac]; [unfold zlen in Zr; clear - Zr; lia|exact Ur|clear - Hig; lia|clear - BF; lia|fold d; rewrite Iu, Fu; exact BU]. }
  assert (MG : magnitude d = quotient_units a b F).
  { rewrite magnitude_sg. cbn [d fd_lsu]. fold d. replace (iu d + fu d) with (Z.max 0 n + (iu d + fu d - Z.max 0 n)) by (clear; lia).
    rewrite sg_app by (clear - NU; lia). rewrite (sg_0 r (0 + Z.max 0 n)) by (intros k Hk; apply Z0; clear - Hk; lia). rewrite E. ring. }
  constructor.
  - unfold qig. fold K g. fold ig. exact Ii.
  - exact WF.
  - apply clean_intro; [|rewrite Iu, Fu; clear - BF; lia]. intros k Hk. cbn [d fd_lsu]. apply Z0. clear - Hk NU. lia.
  - unfold nohidden. rewrite Fd, Fu. rewrite Z.sub_diag, Z.pow_0_r. apply Z.mod_1_r.
  - unfold neg. cbn [d fd_intg]. apply Z.ltb_ge. clear - Hig. lia.
  - unfold exp_of. fold K g. exact Iu.
  - rewrite Fd, Fu. reflexivity.
  - rewrite Fu, Iu, HF. reflexivity.
  - rewrite Fu. exact MG.
Qed.

(** What the long division has to do; [Div4] shows it for divisors of two
    significant units, [DivG2] for any divisor and a tame quotient. *)
Definition long_good (m : build) (a b : fd) (incr : Z) : Prop := forall lnz rnz, lead2 a b lnz rnz -> 1 <= rnz -> exp_of a b lnz rnz <= 9 ->
  let F := qfu a b incr lnz rnz in let U := Z.max 0 (exp_of a b lnz rnz) + F in let n := F + qk a b lnz rnz + b2z (qge a b lnz rnz) in
  0 <= F <= 4 -> n <= U -> 0 <= U <= 9 -> U + lnz + 1 < 18 \/ qge a b lnz rnz = false ->
  exists r, div_body m (fd_lsu a) (fd_lsu b) zero_units lnz rnz (qge a b lnz rnz) U F (qig a b lnz rnz) n = Ret (Ok tt, mkfd (as_i8 (qig a b lnz rnz)) (9 * F) r) /\
    wrote zero_units r 0 (Z.max 0 n) /\ sg r 0 (Z.max 0 n) = quotient_units a b F.

Lemma long_good_two m a b incr : wf a -> wf b -> significant_units 2 b -> (m = Debug -> significant_units 1 b) -> long_good m a b incr.
Proof. intros Ha Hb S2 S1 lnz rnz L R1 O F U n BF HnU HU Room. apply body_long; assumption. Qed.

Lemma div_abs_run_gen a b res incr o : wf a -> wf b -> magnitude a <> 0 -> magnitude b <> 0 -> 0 <= incr -> sane_request a b incr -> long_good Release a b incr ->
  div_abs Release a b res incr = Ret o ->
  exists lnz rnz, lead2 a b lnz rnz /\
    ((9 < exp_of a b lnz rnz /\ o = (Err Overflow, zero)) \/
     (exp_of a b lnz rnz <= 9 /\ exists d, o = (Ok tt, d) /\ div_result a b incr lnz rnz d)).
Proof.
  intros Ha Hb Na Nb Hi Sn LG H. destruct (div_plan Release a b res incr Ha Hb Na Nb Hi Sn) as (lnz & rnz & L & E & Rm). apply Rm in H as Rm'. clear Rm. rename Rm' into Rm. rewrite (E Rm) in H. clear E.
  exists lnz, rnz. split; [exact L|]. fold (exp_of a b lnz rnz) in H.
  destruct (Z.ltb_spec 9 (exp_of a b lnz rnz)) as [O|O]; [left; injection H as <-; auto|right; split; [exact O|]].
  pose proof (l2_a0 a b lnz rnz L) as A0. pose proof (l2_b0 a b lnz rnz L) as B0. pose proof (wf_counts a Ha) as CA. pose proof (wf_counts b Hb) as CB.
  pose proof (finish_result a b incr lnz rnz) as FR. cbv zeta in FR.
  assert (HG : 0 <= Z.max (fu a + fu b) (units_for (frac_digits a + frac_digits b + incr))) by (clear - CA CB; lia).
  assert (HF : qfu a b incr lnz rnz = Z.min 4 (Z.min (9 - Z.max 0 (exp_of a b lnz rnz)) (Z.max (fu a + fu b) (units_for (frac_digits a + frac_digits b + incr))))) by reflexivity.
  pose proof (LG lnz rnz L) as LG'. cbv zeta in LG'.
  set (F := qfu a b incr lnz rnz) in *. clearbody F.
  assert (BF : 0 <= F <= 4) by (clear - HF HG O; lia). assert (BU : Z.max 0 (exp_of a b lnz rnz) + F <= 9) by (clear - HF HG O; lia).
  assert (EQI : qiu a b lnz rnz = Z.max 0 (exp_of a b lnz rnz)) by reflexivity. rewrite EQI in H. clear EQI.
  assert (HK : F + qk a b lnz rnz + b2z (qge a b lnz rnz) = F + exp_of a b lnz rnz) by (unfold exp_of; clear; lia).
  destruct (Z.eq_dec rnz 0) as [R|R].
  - destruct (body_short Release a b lnz rnz F (Z.max 0 (exp_of a b lnz rnz) + F) (qig a b lnz rnz) Ha Hb L R BF) as (r & E & W & Es); [rewrite HK; clear - BU; lia|].
    rewrite E in H. injection H as <-. eexists. split; [reflexivity|]. apply FR; assumption.
  - assert (R1 : 1 <= rnz) by (clear - R B0; lia).
    assert (Room : Z.max 0 (exp_of a b lnz rnz) + F + lnz + 1 < 18 \/ qge a b lnz rnz = false).
    { destruct (Z.lt_ge_cases (Z.max 0 (exp_of a b lnz rnz) + F + lnz + 1) 18) as [?|X]; [auto|right].
      destruct (qge a b lnz rnz) eqn:G; [exfalso|reflexivity].
      refine (body_no_room Release _ _ _ lnz rnz _ _ _ _ o R1 _ _ H); [|rewrite HK]; clear - X A0 CA BU BF; lia. }
    rewrite HK in *.
    destruct (LG' R1 O BF) as (r & E & W & Es); [clear - BU; lia|clear - BU BF; lia|exact Room|].
    rewrite E in H. injection H as <-. eexists. split; [reflexivity|]. apply FR; assumption.
Qed.

(** The dividend and the result have room in the buffer. *)
Definition buffer_room (a b : fd) (incr lnz rnz : Z) : Prop :=
  9 < exp_of a b lnz rnz \/ rnz = 0 \/ Z.max 0 (exp_of a b lnz rnz) + qfu a b incr lnz rnz + lnz + 1 < 18 \/ qge a b lnz rnz = false.

(** The long division returns something. *)
Definition long_returns (m : build) (a b : fd) (incr : Z) : Prop := forall lnz rnz, lead2 a b lnz rnz -> 1 <= rnz -> exp_of a b lnz rnz <= 9 ->
  let F := qfu a b incr lnz rnz in let U := Z.max 0 (exp_of a b lnz rnz) + F in let n := F + qk a b lnz rnz + b2z (qge a b lnz rnz) in
  0 <= F <= 4 -> n <= U -> 0 <= U <= 9 -> U + lnz + 1 < 18 \/ qge a b lnz rnz = false ->
  exists o, div_body m (fd_lsu a) (fd_lsu b) zero_units lnz rnz (qge a b lnz rnz) U F (qig a b lnz rnz) n = Ret o.
Lemma good_returns m a b incr : long_good m a b incr -> long_returns m a b incr.
Proof. intros H lnz rnz L R O F U n BF Hn HU Rm. destruct (H lnz rnz L R O BF Hn HU Rm) as (r & E & _). eauto. Qed.

(** Where it returns. *)
Lemma div_abs_returns_iff m a b res incr : wf a -> wf b -> magnitude a <> 0 -> magnitude b <> 0 -> 0 <= incr -> sane_request a b incr ->
  exists lnz rnz, lead2 a b lnz rnz /\ (long_returns m a b incr -> room a b incr lnz rnz -> buffer_room a b incr lnz rnz -> exists o, div_abs m a b res incr = Ret o) /\
    (forall o, div_abs m a b res incr = Ret o -> room a b incr lnz rnz /\ buffer_room a b incr lnz rnz).
Proof.
  intros Ha Hb Na Nb Hi Sn. destruct (div_plan m a b res incr Ha Hb Na Nb Hi Sn) as (lnz & rnz & L & E & Rm).
  exists lnz, rnz. split; [exact L|].
  pose proof (l2_a0 a b lnz rnz L) as A0. pose proof (l2_b0 a b lnz rnz L) as B0. pose proof (wf_counts a Ha) as CA. pose proof (wf_counts b Hb) as CB.
  assert (HG : 0 <= Z.max (fu a + fu b) (units_for (frac_digits a + frac_digits b + incr))) by (clear - CA CB; lia).
  assert (HF : qfu a b incr lnz rnz = Z.min 4 (Z.min (9 - Z.max 0 (exp_of a b lnz rnz)) (Z.max (fu a + fu b) (units_for (frac_digits a + frac_digits b + incr))))) by reflexivity.
  assert (LG' := fun LG : long_returns m a b incr => LG lnz rnz L). cbv zeta in LG'.
  assert (Rm' : forall o, div_abs m a b res incr = Ret o -> room a b incr lnz rnz /\ div_abs m a b res incr = Ret o) by (intros o H; split; [apply (Rm o H)|exact H]). clear Rm.
  revert Rm'. generalize dependent (div_abs m a b res incr). intros da E Rm. fold (exp_of a b lnz rnz) in E. unfold buffer_room.
  assert (EQI : qiu a b lnz rnz = Z.max 0 (exp_of a b lnz rnz)) by reflexivity. rewrite EQI in E. clear EQI.
  set (F := qfu a b incr lnz rnz) in *. clearbody F.
  assert (HK : F + qk a b lnz rnz + b2z (qge a b lnz rnz) = F + exp_of a b lnz rnz) by (unfold exp_of; clear; lia).
  destruct (Z.ltb_spec 9 (exp_of a b lnz rnz)) as [O|O].
  { split; [intros _ R _; rewrite (E R); eauto|]. intros o H. split; [apply (Rm o H)|left; exact O]. }
  assert (BF : 0 <= F <= 4) by (clear - HF HG O; lia). assert (BU : Z.max 0 (exp_of a b lnz rnz) + F <= 9) by (clear - HF HG O; lia).
  split.
  - intros LG R B. rewrite (E R). clear E Rm. specialize (LG' LG). destruct B as [B|B]; [exfalso; clear - B O; lia|].
    destruct (Z.eq_dec rnz 0) as [R0|R0].
    + destruct (body_short m a b lnz rnz F (Z.max 0 (exp_of a b lnz rnz) + F) (qig a b lnz rnz) Ha Hb L R0 BF) as (r & E & W & Es); [rewrite HK; clear - BU; lia|].
      rewrite E. eauto.
    + destruct B as [B|B]; [contradiction|]. rewrite HK in *.
      apply (LG' ltac:(clear - R0 B0; lia) O BF); [clear - BU; lia|clear - BU BF; lia|exact B].
  - intros o H. destruct (Rm o H) as [R _]. split; [exact R|]. rewrite (E R) in H. right.
    destruct (Z.eq_dec rnz 0) as [R0|R0]; [left; exact R0|right].
    destruct (Z.lt_ge_cases (Z.max 0 (exp_of a b lnz rnz) + F + lnz + 1) 18) as [?|X]; [auto|right].
    destruct (qge a b lnz rnz) eqn:G; [exfalso|reflexivity].
    refine (body_no_room m _ _ _ lnz rnz _ _ _ _ o _ _ _ H); [clear - R0 B0; lia| |rewrite HK]; clear - X A0 CA BU BF; lia.
Qed.

(** A divisor of one unit, in the lowest place: always. *)
Lemma div_zero_dividend m a b res incr : wf a -> wf b -> magnitude a = 0 -> magnitude b <> 0 -> div_abs m a b res incr = Ret (Ok tt, zero).
Proof.
  intros Ha Hb Na Nb. pose proof (wf_counts a Ha) as CA. pose proof (wf_counts b Hb) as CB. pose proof (wf_zlen a Ha). pose proof (wf_zlen b Hb).
  unfold div_abs. rewrite !intg_ok. unfold frac. fold (frac_digits a) (frac_digits b).
  rewrite !get_units_ok by lia. mret. mret. mret. mret. fold (iu a) (fu a) (iu b) (fu b).
  destruct (lead_ok (fd_lsu b) (iu b + fu b)) as (k & E & L); [apply wf_uok, Hb|lia|].
  rewrite E. mret. rewrite magnitude_sg in Na, Nb.
  pose proof (leads_neg (fd_lsu b) (iu b + fu b) k (wf_uok b Hb) ltac:(lia) L) as X. replace (k <? 0) with false by (symmetry; apply Z.ltb_ge; destruct (Z.lt_ge_cases k 0); [exfalso; tauto|assumption]).
  destruct (lead_ok (fd_lsu a) (iu a + fu a)) as (k' & E' & L'); [apply wf_uok, Ha|lia|].
  rewrite E'. mret. pose proof (leads_neg (fd_lsu a) (iu a + fu a) k' (wf_uok a Ha) ltac:(lia) L') as X'. replace (k' <? 0) with true by (symmetry; apply Z.ltb_lt; tauto).
  reflexivity.
Qed.

(** Overflow is returned whatever the divisor, and nothing else can be returned then. *)
Lemma div_abs_overflow m a b res incr : wf a -> wf b -> magnitude a <> 0 -> magnitude b <> 0 -> 0 <= incr -> div_room a b incr ->
  exists lnz rnz, lead2 a b lnz rnz /\ (9 < exp_of a b lnz rnz -> div_abs m a b res incr = Ret (Err Overflow, zero)) /\
    (exp_of a b lnz rnz <= 9 -> forall e d, div_abs m a b res incr <> Ret (Err e, d)).
Proof.
  intros Ha Hb Na Nb Hi Rm. assert (Sn : sane_request a b incr) by (destruct Rm as (_ & _ & _ & R4); unfold sane_request; clear - R4; lia).
  destruct (div_plan m a b res incr Ha Hb Na Nb Hi Sn) as (lnz & rnz & L & E & _). exists lnz, rnz. split; [exact L|].
  rewrite (E (div_room_room a b incr lnz rnz Ha Hb L Rm)). clear E. fold (exp_of a b lnz rnz). split.
  - intros O. replace (9 <? exp_of a b lnz rnz) with true by lia. reflexivity.
  - intros O e d. replace (9 <? exp_of a b lnz rnz) with false by lia. unfold div_body. cbv zeta. intros H. destruct (rnz =? 0).
    + apply bind_inv in H. destruct H as (? & _ & H). apply bind_inv in H. destruct H as (? & _ & H). apply bind_inv in H. destruct H as (? & _ & H). discriminate.
    + apply bind_inv in H. destruct H as (? & _ & H). apply bind_inv in H. destruct H as (? & _ & H). apply bind_inv in H. destruct H as ([? ?] & _ & H).
      apply bind_inv in H. destruct H as (? & _ & H). apply bind_inv in H. destruct H as (? & _ & H). apply bind_inv in H. destruct H as (? & _ & H). discriminate.
Qed.
