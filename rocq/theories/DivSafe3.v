(** * Division where no units of the divisor are cut off: the whole operation. *)
From Coq Require Import ZArith List Bool Lia QArith Qabs.
From Coq Require Import ZifyBool ZifyNat.
From Verif Require Import Rust Tables Model_Base Model_Cmp Model_Arith Spec Spec_Div Spec_Guess Lib QLib Cmp AddSub Sign Mul DivBasics Div Div2 Div3 Div4 Div5 DivQ DivFit DivG DivG2 DivDebug DivSafe DivSafe2 Rem4 Rem7.
Import ListNotations.
Open Scope Z_scope.
Ltac Zify.zify_post_hook ::= Z.div_mod_to_equations.

Definition all_good (m : build) (x y : Z) : Prop := (m = Debug -> guesses_small x y) /\ right_but_last x y.

Lemma cut_exp a b lnz rnz : wf a -> wf b -> lead2 a b lnz rnz -> nothing_cut a b -> fu b <= fu a + Z.max 0 (exp_of a b lnz rnz).
Proof.
  intros Ha Hb L [H|H]; [lia|]. destruct (exp_bounds a b lnz rnz Ha Hb L) as [_ B2].
  set (e := exp_of a b lnz rnz) in *. clearbody e. destruct (Z.le_gt_cases (fu b) (fu a + Z.max 0 e)) as [|C]; [assumption|exfalso].
  apply (Qlt_irrefl (Qabs (value a / value b))). eapply Qlt_le_trans; [exact B2|]. eapply Qle_trans; [|exact H]. apply pow10_mono. lia.
Qed.

Lemma long_good_all m a b incr : wf a -> wf b -> nothing_cut a b ->
  (forall lnz rnz, lead2 a b lnz rnz -> exp_of a b lnz rnz <= 9 -> all_good m (magnitude a * base ^ (qfu a b incr lnz rnz + fu b)) (magnitude b * base ^ fu a)) -> long_good m a b incr.
Proof.
  intros Ha Hb NC G lnz rnz L R1 O F U n BF HnU HU Room.
  destruct (body_safe m a b lnz rnz F U (qig a b lnz rnz) Ha Hb L R1 BF HnU HU eq_refl Room (cut_exp a b lnz rnz Ha Hb L NC)) as [B _]. apply B. apply (G lnz rnz L O).
Qed.

Lemma div_abs_safe a b res incr : wf a -> wf b -> magnitude a <> 0 -> magnitude b <> 0 -> nothing_cut a b -> 0 <= incr -> sane_request a b incr ->
  exists lnz rnz, lead2 a b lnz rnz /\
    ((exists o, div_abs Debug a b res incr = Ret o) <-> room a b incr lnz rnz /\ buffer_room a b incr lnz rnz /\
      (exp_of a b lnz rnz <= 9 -> all_good Debug (magnitude a * base ^ (qfu a b incr lnz rnz + fu b)) (magnitude b * base ^ fu a))).
Proof.
  intros Ha Hb Na Nb NC Hi Sn. destruct (div_plan Debug a b res incr Ha Hb Na Nb Hi Sn) as (lnz & rnz & L & E & Rm).
  exists lnz, rnz. split; [exact L|]. pose proof (cut_exp a b lnz rnz Ha Hb L NC) as Cut.
  pose proof (l2_a0 a b lnz rnz L) as A0. pose proof (l2_b0 a b lnz rnz L) as B0. pose proof (wf_counts a Ha) as CA. pose proof (wf_counts b Hb) as CB.
  assert (HG : 0 <= Z.max (fu a + fu b) (units_for (frac_digits a + frac_digits b + incr))) by (clear - CA CB; lia).
  assert (HF : qfu a b incr lnz rnz = Z.min 4 (Z.min (9 - Z.max 0 (exp_of a b lnz rnz)) (Z.max (fu a + fu b) (units_for (frac_digits a + frac_digits b + incr))))) by reflexivity.
  assert (Rm' : forall o, div_abs Debug a b res incr = Ret o -> room a b incr lnz rnz /\ div_abs Debug a b res incr = Ret o) by (intros o H; split; [apply (Rm o H)|exact H]). clear Rm.
  revert Rm'. generalize dependent (div_abs Debug a b res incr). intros da E Rm. fold (exp_of a b lnz rnz) in E. unfold buffer_room.
  assert (EQI : qiu a b lnz rnz = Z.max 0 (exp_of a b lnz rnz)) by reflexivity. rewrite EQI in E. clear EQI.
  set (F := qfu a b incr lnz rnz) in *. clearbody F.
  assert (HK : F + qk a b lnz rnz + b2z (qge a b lnz rnz) = F + exp_of a b lnz rnz) by (unfold exp_of; clear; lia).
  destruct (Z.ltb_spec 9 (exp_of a b lnz rnz)) as [O|O].
  { split; [intros [o H]; split; [apply (Rm o H)|split; [left; exact O|intros X; exfalso; clear - X O; lia]]|]. intros (R & _). rewrite (E R). eauto. }
  assert (BF : 0 <= F <= 4) by (clear - HF HG O; lia). assert (BU : Z.max 0 (exp_of a b lnz rnz) + F <= 9) by (clear - HF HG O; lia).
  destruct (Z.eq_dec rnz 0) as [R0|R0].
  - assert (MB : 0 < magnitude b < base). { pose proof (l2_bt a b lnz rnz L) as TB. pose proof (l2_bp a b lnz rnz L) as PB. subst rnz. rewrite Z.pow_0_r in TB. clear - TB PB. lia. }
    assert (Pf : 0 < base ^ fu a) by (apply pow_base_pos; clear - CA; lia).
    assert (GS : all_good Debug (magnitude a * base ^ (F + fu b)) (magnitude b * base ^ fu a)).
    { assert (Y0 : 0 < magnitude b * base ^ fu a) by (apply Z.mul_pos_pos; [apply MB|exact Pf]).
      assert (GR : guesses_right (magnitude a * base ^ (F + fu b)) (magnitude b * base ^ fu a)).
      { apply (two_units_right _ _ (magnitude b) (fu a)); [|clear - CA; lia|reflexivity]. assert (base < base ^ 2) by reflexivity. clear - MB H. lia. }
      split.
      - intros _. apply (one_unit_small _ _ (magnitude b) (fu a)); [exact MB|clear - CA; lia|reflexivity].
      - intros len j Hl By Hj G. apply GR; try assumption. clear - Hj; lia. }
    split; [intros [o H]; split; [apply (Rm o H)|split; [right; left; exact R0|auto]]|]. intros (R & _). rewrite (E R).
    destruct (body_short Debug a b lnz rnz F (Z.max 0 (exp_of a b lnz rnz) + F) (qig a b lnz rnz) Ha Hb L R0 BF) as (r & E' & _); [rewrite HK; clear - BU; lia|]. rewrite E'. eauto.
  - assert (R1 : 1 <= rnz) by (clear - R0 B0; lia).
    pose proof (body_safe Debug a b lnz rnz F (Z.max 0 (exp_of a b lnz rnz) + F) (qig a b lnz rnz) Ha Hb L R1 BF) as BD. cbv zeta in BD. rewrite HK in *.
    specialize (BD ltac:(clear - BU; lia) ltac:(clear - BU BF; lia) eq_refl). split.
    + intros [o H]. destruct (Rm o H) as [R _]. rewrite (E R) in H.
      assert (Room : Z.max 0 (exp_of a b lnz rnz) + F + lnz + 1 < 18 \/ qge a b lnz rnz = false).
      { destruct (Z.lt_ge_cases (Z.max 0 (exp_of a b lnz rnz) + F + lnz + 1) 18) as [?|X]; [auto|right].
        destruct (qge a b lnz rnz) eqn:G; [exfalso|reflexivity].
        refine (body_no_room Debug _ _ _ lnz rnz _ _ _ _ o R1 _ _ H); clear - X A0 CA BU BF; lia. }
      split; [exact R|]. split; [right; right; exact Room|]. intros _. destruct (BD Room Cut) as [_ B]. destruct (B eq_refl o H) as (B1 & B2). split; [intros _; exact B1|assumption].
    + intros (R & [B|[B|B]] & G); [exfalso; clear - B O; lia|contradiction|]. rewrite (E R). destruct (BD B Cut) as [C _]. destruct (C (G O)) as (r & Er & _). eauto.
Qed.
