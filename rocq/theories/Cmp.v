(** * Proofs about src/cmp.rs: comparison is comparison of numbers. *)
From Coq Require Import ZArith List Bool Lia QArith.
From Coq Require Import ZifyBool ZifyNat.
Import ListNotations.
From Verif Require Import Rust Tables Model_Base Model_Cmp Spec Lib.
Open Scope Z_scope.
Ltac Zify.zify_post_hook ::= Z.div_mod_to_equations.

Lemma scan_pos_ok n l i : uok l -> 0 <= i + 1 - Z.of_nat n -> i < zlen l ->
  scan_pos n l i = Ret (0 <? seg l (i + 1 - Z.of_nat n) n).
Proof.
  intros Hu. revert i; induction n as [|n IH]; intros i Hi Hl; [reflexivity|].
  cbn [scan_pos]. rewrite get_ok by lia. rewrite bind_Ret.
  rewrite seg_snoc. replace (i + 1 - Z.of_nat (S n) + Z.of_nat n) with i by lia.
  pose proof (uok_zn l i Hu). pose proof (seg_nonneg l (i + 1 - Z.of_nat (S n)) n Hu).
  pose proof (pow_base_pos (Z.of_nat n)).
  destruct (zn l i >? 0) eqn:E.
  - replace (0 <? _) with true by nia. reflexivity.
  - rewrite IH by lia. replace (i - 1 + 1 - Z.of_nat n) with (i + 1 - Z.of_nat (S n)) by lia.
    f_equal. replace (zn l i) with 0 by lia. f_equal. lia.
Qed.

Lemma lex_compare P lo lo' t t' : 0 <= lo < P -> 0 <= lo' < P ->
  Z.compare (lo + P * t) (lo' + P * t') =
  match Z.compare t t' with Eq => Z.compare lo lo' | c => c end.
Proof.
  intros H H'. destruct (Z.compare_spec t t') as [->|Hlt|Hgt].
  - destruct (Z.compare_spec lo lo') as [->|?|?].
    + apply Z.compare_refl.
    + apply Z.compare_lt_iff. lia.
    + apply Z.compare_gt_iff. lia.
  - apply Z.compare_lt_iff. nia.
  - apply Z.compare_gt_iff. nia.
Qed.

Lemma cmp_common_ok n l r i j : uok l -> uok r ->
  0 <= i + 1 - Z.of_nat n -> i < zlen l -> 0 <= j + 1 - Z.of_nat n -> j < zlen r ->
  cmp_common n l r i j =
  Ret (match Z.compare (seg l (i + 1 - Z.of_nat n) n) (seg r (j + 1 - Z.of_nat n) n) with
       | Eq => None | c => Some c end).
Proof.
  intros Hu Hr. revert i j; induction n as [|n IH]; intros i j Hi Hl Hj Hl'; [reflexivity|].
  cbn [cmp_common]. rewrite !get_ok by lia. rewrite !bind_Ret.
  rewrite !seg_snoc. replace (i + 1 - Z.of_nat (S n) + Z.of_nat n) with i by lia.
  replace (j + 1 - Z.of_nat (S n) + Z.of_nat n) with j by lia.
  rewrite lex_compare by (apply seg_bound; assumption).
  destruct (Z.compare_spec (zn l i) (zn r j)) as [E|E|E].
  - replace (zn l i >? zn r j) with false by lia. replace (zn l i <? zn r j) with false by lia.
    rewrite IH by lia. replace (i - 1 + 1 - Z.of_nat n) with (i + 1 - Z.of_nat (S n)) by lia.
    replace (j - 1 + 1 - Z.of_nat n) with (j + 1 - Z.of_nat (S n)) by lia. reflexivity.
  - replace (zn l i >? zn r j) with false by lia. replace (zn l i <? zn r j) with true by lia. reflexivity.
  - replace (zn l i >? zn r j) with true by lia. reflexivity.
Qed.

(** A magnitude split into the part below the common fractional units, the
    common units and the part above the common integral units. *)
Lemma decomp l iu fu f c : 0 <= f <= fu -> 0 <= c <= iu -> fu <= 9 ->
  sg l 0 (iu + fu) * base ^ (9 - fu) =
  sg l 0 (fu - f) * base ^ (9 - fu)
  + base ^ (9 - f) * (sg l (fu - f) (f + c) + base ^ (f + c) * sg l (fu + c) (iu - c)).
Proof.
  intros Hf Hc H9. replace (iu + fu) with ((fu - f) + ((f + c) + (iu - c))) by lia.
  rewrite !sg_app by lia. replace (0 + (fu - f)) with (fu - f) by lia.
  replace (fu - f + (f + c)) with (fu + c) by lia.
  replace (9 - f) with ((fu - f) + (9 - fu)) by lia. rewrite (base_pow_split (fu - f) (9 - fu)) by lia. ring.
Qed.
Lemma decomp_low l fu f : uok l -> 0 <= f <= fu -> fu <= 9 ->
  0 <= sg l 0 (fu - f) * base ^ (9 - fu) < base ^ (9 - f).
Proof.
  intros Hu Hf H9. pose proof (sg_bound l 0 (fu - f) Hu).
  pose proof (pow_base_pos (9 - fu)).
  replace (9 - f) with ((fu - f) + (9 - fu)) by lia. rewrite base_pow_split by lia. nia.
Qed.

Lemma scan_sg n l i : uok l -> 0 <= n -> 0 <= i + 1 - n -> i < zlen l ->
  scan_pos (Z.to_nat n) l i = Ret (0 <? sg l (i + 1 - n) n).
Proof. intros. rewrite scan_pos_ok by (auto; lia). unfold sg. rewrite Z2Nat.id by lia. reflexivity. Qed.

Lemma cmp_abs_lsu_ok liu lfu l riu rfu r : uok l -> uok r ->
  0 <= liu -> 0 <= lfu <= 9 -> liu + lfu <= zlen l ->
  0 <= riu -> 0 <= rfu <= 9 -> riu + rfu <= zlen r ->
  cmp_abs_lsu liu lfu l riu rfu r =
  Ret (Z.compare (sg l 0 (liu + lfu) * base ^ (9 - lfu)) (sg r 0 (riu + rfu) * base ^ (9 - rfu))).
Proof.
  intros Hu Hr Hli Hlf Hl Hri Hrf Hrr.
  set (f := Z.min lfu rfu). set (c := Z.min liu riu).
  rewrite (decomp l liu lfu f c), (decomp r riu rfu f c) by (subst f c; lia).
  rewrite lex_compare by (apply decomp_low; subst f; auto; lia).
  rewrite lex_compare by (apply sg_bound; subst f c; auto; lia).
  unfold cmp_abs_lsu.
  assert (E1 : Z.of_nat (Z.to_nat (liu - riu)) = liu - c) by (subst c; lia).
  assert (E2 : Z.of_nat (Z.to_nat (riu - liu)) = riu - c) by (subst c; lia).
  replace (Z.to_nat (liu - riu)) with (Z.to_nat (liu - c)) in * by lia.
  replace (Z.to_nat (riu - liu)) with (Z.to_nat (riu - c)) in * by lia.
  rewrite scan_sg by (auto; subst c; lia). rewrite bind_Ret.
  replace (liu + lfu - 1 + 1 - (liu - c)) with (lfu + c) by lia.
  pose proof (sg_nonneg l (lfu + c) (liu - c) Hu) as Nl.
  pose proof (sg_nonneg r (rfu + c) (riu - c) Hr) as Nr.
  assert (Zr : 0 < liu - c -> sg r (rfu + c) (riu - c) = 0) by (intros; apply sg_nil; subst c; lia).
  assert (Zl : 0 < riu - c -> sg l (lfu + c) (liu - c) = 0) by (intros; apply sg_nil; subst c; lia).
  destruct (0 <? sg l (lfu + c) (liu - c)) eqn:Gl.
  { assert (0 < liu - c). { destruct (Z_lt_dec 0 (liu - c)); [assumption|]. rewrite sg_nil in Gl by lia. lia. }
    rewrite (Zr H). destruct (Z.compare_spec (sg l (lfu + c) (liu - c)) 0); try lia. reflexivity. }
  assert (Gl0 : sg l (lfu + c) (liu - c) = 0) by lia. rewrite Gl0.
  rewrite scan_sg by (auto; subst c; lia). rewrite bind_Ret.
  replace (riu + rfu - 1 + 1 - (riu - c)) with (rfu + c) by lia.
  destruct (0 <? sg r (rfu + c) (riu - c)) eqn:Gr.
  { destruct (Z.compare_spec 0 (sg r (rfu + c) (riu - c))); try lia. reflexivity. }
  assert (Gr0 : sg r (rfu + c) (riu - c) = 0) by lia. rewrite Gr0. cbn [Z.compare].
  rewrite E1, E2.
  assert (En : Z.min (liu + lfu - 1 - (liu - c) + 1) (riu + rfu - 1 - (riu - c) + 1) = f + c) by (subst f; lia).
  rewrite En.
  assert (Hfc : Z.of_nat (Z.to_nat (f + c)) = f + c) by (subst f c; lia).
  rewrite cmp_common_ok by (auto; subst f c; lia). rewrite bind_Ret. rewrite Hfc.
  change (seg l ?i (Z.to_nat (f + c))) with (sg l i (f + c)).
  change (seg r ?i (Z.to_nat (f + c))) with (sg r i (f + c)).
  replace (liu + lfu - 1 - (liu - c) + 1 - (f + c)) with (lfu - f) by lia.
  replace (riu + rfu - 1 - (riu - c) + 1 - (f + c)) with (rfu - f) by lia.
  destruct (sg l (lfu - f) (f + c) ?= sg r (rfu - f) (f + c)); try reflexivity.
  replace (liu + lfu - 1 - (liu - c) - (f + c) + 1) with (lfu - f) by lia.
  replace (liu + lfu - 1 - (liu - c) - (f + c)) with (lfu - f - 1) by lia.
  rewrite scan_sg by (auto; subst f; lia). rewrite bind_Ret.
  replace (lfu - f - 1 + 1 - (lfu - f)) with 0 by lia.
  replace (riu + rfu - 1 - (riu - c) - (f + c) + 1) with (rfu - f) by lia.
  replace (riu + rfu - 1 - (riu - c) - (f + c)) with (rfu - f - 1) by lia.
  rewrite scan_sg by (auto; subst f; lia). rewrite bind_Ret.
  replace (rfu - f - 1 + 1 - (rfu - f)) with 0 by lia.
  pose proof (sg_nonneg l 0 (lfu - f) Hu) as Ml. pose proof (sg_nonneg r 0 (rfu - f) Hr) as Mr.
  pose proof (pow_base_pos (9 - lfu)). pose proof (pow_base_pos (9 - rfu)).
  assert (lfu - f = 0 \/ rfu - f = 0) as [Ef|Ef] by (subst f; lia).
  - rewrite Ef in *. rewrite (sg_nil l 0 0) by lia. rewrite Z.mul_0_l. change (0 <? 0) with false. cbn iota.
    destruct (0 <? sg r 0 (rfu - f)) eqn:G.
    + assert (Pp : 0 < sg r 0 (rfu - f) * base ^ (9 - rfu)) by (apply Z.mul_pos_pos; [apply Z.ltb_lt; exact G | apply pow_base_pos; subst f; clear G; lia]).
      symmetry. f_equal. apply (proj2 (Z.compare_lt_iff _ _)). exact Pp.
    + replace (sg r 0 (rfu - f)) with 0 by lia. reflexivity.
  - rewrite Ef in *. rewrite (sg_nil r 0 0) by lia. rewrite Z.mul_0_l. change (0 <? 0) with false. cbn iota.
    destruct (0 <? sg l 0 (lfu - f)) eqn:G.
    + assert (Pp : 0 < sg l 0 (lfu - f) * base ^ (9 - lfu)) by (apply Z.mul_pos_pos; [apply Z.ltb_lt; exact G | apply pow_base_pos; subst f; clear G; lia]).
      symmetry. f_equal. apply (proj2 (Z.compare_gt_iff _ _)). exact Pp.
    + replace (sg l 0 (lfu - f)) with 0 by lia. reflexivity.
Qed.

Lemma cmp_abs_ok m a b : wf a -> wf b -> cmp_abs m a b = Ret (Z.compare (amag a) (amag b)).
Proof.
  intros Ha Hb. unfold cmp_abs. rewrite !intg_units_ok, !frac_units_ok by assumption. rewrite !bind_Ret.
  pose proof (wf_counts a Ha). pose proof (wf_counts b Hb).
  rewrite cmp_abs_lsu_ok by (rewrite ?wf_zlen by assumption; auto using wf_uok; lia).
  unfold amag. rewrite !magnitude_sg. reflexivity.
Qed.

(** [cmp] in terms of the two numbers and the two sign flags. *)
Definition order (a b : fd) : comparison :=
  match neg a, neg b with
  | true, true => Z.compare (amag b) (amag a)
  | true, false => Lt
  | false, true => Gt
  | false, false => Z.compare (amag a) (amag b)
  end.

Lemma cmp_order m a b : wf a -> wf b -> cmp m a b = Ret (order a b).
Proof.
  intros Ha Hb. unfold cmp, order. rewrite !is_neg_ok by (apply wf_intg; assumption).
  destruct (neg a), (neg b); auto using cmp_abs_ok.
Qed.

Lemma amag_zero_value d : wf d -> (amag d = 0 <-> (value d == 0)%Q).
Proof.
  intros H. rewrite value_zero_iff by assumption. unfold amag.
  pose proof (wf_counts d H). pose proof (pow_base_pos (9 - fu d)). nia.
Qed.

Lemma num_zero_value d : wf d -> (num d = 0 <-> (value d == 0)%Q).
Proof. intros H. rewrite <- amag_zero_value by assumption. unfold num. destruct (neg d); lia. Qed.

Lemma order_value a b : wf a -> wf b ->
  ((value a == 0)%Q -> (value b == 0)%Q -> neg a = neg b) ->
  order a b = Qcompare (value a) (value b).
Proof.
  intros Ha Hb Hz. rewrite value_compare by assumption.
  rewrite <- !amag_zero_value in Hz by assumption.
  unfold order, num. pose proof (amag_nonneg a Ha). pose proof (amag_nonneg b Hb).
  destruct (neg a), (neg b).
  - rewrite Z.compare_opp. reflexivity.
  - symmetry. apply Z.compare_lt_iff. destruct (Z.eq_dec (amag a) 0), (Z.eq_dec (amag b) 0); try lia.
  - symmetry. apply Z.compare_gt_iff. destruct (Z.eq_dec (amag a) 0), (Z.eq_dec (amag b) 0); try lia.
  - reflexivity.
Qed.

(** When both are zero the flags decide. *)
Lemma order_zeroes a b : wf a -> wf b -> (value a == 0)%Q -> (value b == 0)%Q ->
  order a b = match neg a, neg b with true, false => Lt | false, true => Gt | _, _ => Eq end.
Proof.
  intros Ha Hb Za Zb. rewrite <- amag_zero_value in Za, Zb by assumption.
  unfold order. rewrite Za, Zb. destruct (neg a), (neg b); reflexivity.
Qed.

Lemma order_refl a : order a a = Eq.
Proof. unfold order. destruct (neg a); apply Z.compare_refl. Qed.
Lemma order_antisym a b : order b a = CompOpp (order a b).
Proof. unfold order. destruct (neg a), (neg b); cbn; auto using Z.compare_antisym. Qed.

Ltac zc := repeat match goal with
  | H : (_ ?= _) = Lt |- _ => rewrite Z.compare_lt_iff in H
  | H : (_ ?= _) = Gt |- _ => rewrite Z.compare_gt_iff in H
  | H : (_ ?= _) = Eq |- _ => rewrite Z.compare_eq_iff in H
  end;
  try discriminate; try reflexivity;
  try (apply Z.compare_lt_iff; lia); try (apply Z.compare_gt_iff; lia); try (apply Z.compare_eq_iff; lia).

Lemma order_trans a b c o : order a b = o -> order b c = o -> order a c = o.
Proof.
  unfold order. destruct (neg a), (neg b), (neg c); intros H1 H2; destruct o; try discriminate; zc.
Qed.
Lemma order_eq_l a b c : order a b = Eq -> order a c = order b c.
Proof.
  unfold order. destruct (neg a), (neg b), (neg c); try discriminate; auto; intros H; zc; rewrite H; reflexivity.
Qed.
