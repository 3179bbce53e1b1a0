(** * The remainder of the longest dividends and divisors. *)
From Coq Require Import ZArith List Bool Lia QArith Qabs.
From Coq Require Import ZifyBool ZifyNat.
From Verif Require Import Rust Tables Model_Base Model_Cmp Model_Arith Spec Spec_Rem Lib QLib Cmp AddSub Sign AddSubQ RoundQ Mul MulQ DivBasics Div Div2 Div3 Div4 Div5 DivQ Rem Rem2 Rem3 Rem4.
Import ListNotations.
Open Scope Z_scope.

Lemma negate_len m n : forall l i b l' b', negate_units m n l i b = Ret (l', b') -> zlen l' = zlen l.
Proof.
  induction n as [|n IH]; intros l i b l' b' H; cbn [negate_units] in H; [congruence|].
  apply bind_inv in H. destruct H as (x & _ & H). apply bind_inv in H. destruct H as ([v c] & _ & H). apply bind_inv in H. destruct H as (l1 & S & H).
  apply set_inv in S. destruct S as (_ & ->). rewrite (IH _ _ _ _ _ H). apply zlen_upd.
Qed.
Lemma long_rem_len m b2 len d0 d1 : forall n buf i buf', long_rem m n b2 len d0 d1 buf i = Ret buf' -> zlen buf' = zlen buf.
Proof.
  induction n as [|n IH]; intros buf i buf' H; cbn [long_rem] in H; [congruence|].
  apply bind_inv in H. destruct H as (q & _ & H). apply bind_inv in H. destruct H as (w & _ & H). apply bind_inv in H. destruct H as ([[w' c] b] & _ & H).
  apply bind_inv in H. destruct H as (buf1 & W & H). apply bind_inv in H. destruct H as (x & _ & H). apply bind_inv in H. destruct H as (t & _ & H).
  apply bind_inv in H. destruct H as (bo & _ & H). apply bind_inv in H. destruct H as (buf2 & N & H). apply bind_inv in H. destruct H as (buf3 & S & H).
  rewrite (IH _ _ _ H). apply set_inv in S. destruct S as (_ & ->). rewrite zlen_upd.
  assert (L2 : zlen buf2 = zlen buf1).
  { destruct (bo =? -1); [|congruence]. apply bind_inv in N. destruct N as ([l' b'] & N & E). apply negate_len in N. congruence. }
  rewrite L2. apply write_slice_inv in W. destruct W as (B1 & B2 & B3 & ->). apply zlen_blit; lia.
Qed.

Lemma rem_bufs_len m nf ls rs l1 r1 b1 b2 buf1 buf2 : rem_bufs m nf ls rs l1 r1 b1 b2 = Ret (buf1, buf2) -> zlen buf1 = 18.
Proof.
  unfold rem_bufs. destruct (nf =? 1); intros H.
  - apply bind_inv in H. destruct H as (x & W & H). apply bind_inv in H. destruct H as (y & _ & H). apply write_slice_inv in W. destruct W as (B1 & B2 & B3 & ->).
    assert (E : buf1 = blit (repeat 0 18) l1 ls) by congruence. rewrite E, zlen_blit by lia. reflexivity.
  - apply bind_inv in H. destruct H as ([nl c] & _ & H). apply bind_inv in H. destruct H as (x & W & H). apply write_slice_inv in W. destruct W as (B1 & B2 & B3 & ->).
    apply bind_inv in H. destruct H as ([y c1] & S & H). apply bind_inv in H. destruct H as ([nr c2] & _ & H). apply bind_inv in H. destruct H as (z & _ & H). apply bind_inv in H. destruct H as (? & _ & H).
    assert (E : buf1 = y) by congruence. subst y. assert (LB : zlen (blit (repeat 0 18) l1 nl) = 18) by (rewrite zlen_blit by lia; reflexivity).
    destruct (c >? 0); [|congruence]. apply bind_inv in S. destruct S as (w & S & E). apply set_inv in S. destruct S as (_ & ->).
    assert (E2 : buf1 = upd (Z.to_nat b1) (as_i32 c) (blit (repeat 0 18) l1 nl)) by congruence. rewrite E2, zlen_upd. exact LB.
Qed.

(** No room for the carry, for the first trial, or for the unit the debug build looks at. *)
Lemma rem_long_full m a b lnz rnz : wf a -> wf b -> lead2 a b lnz rnz -> al b a < al a b -> lnz + 1 + lsh a b = 18 -> m = Debug \/ qge a b lnz rnz = true ->
  exists p, rem_long m (fd_lsu a) (fd_lsu b) lnz rnz (qge a b lnz rnz) (lsh a b) (lsh b a) = Panic p.
Proof.
  intros Ha Hb L G R18 Q. destruct (rem_long m (fd_lsu a) (fd_lsu b) lnz rnz (qge a b lnz rnz) (lsh a b) (lsh b a)) as [x|p] eqn:E; [exfalso|eauto].
  destruct (rem_bounds a b lnz rnz Ha Hb L G) as (N1 & _ & _ & RB & _ & _).
  unfold rem_long in E. cbv zeta in E. rewrite R18 in E.
  apply bind_inv in E. destruct E as (t & _ & E). apply bind_inv in E. destruct E as (nf & _ & E). apply bind_inv in E. destruct E as ([buf1 buf2] & EB & E). apply rem_bufs_len in EB.
  apply bind_inv in E. destruct E as (d0 & _ & E). apply bind_inv in E. destruct E as (d1 & _ & E). apply bind_inv in E. destruct E as (b2 & _ & E). apply bind_inv in E. destruct E as (bf & EL & E).
  destruct Q as [->|Q].
  - apply long_rem_len in EL. apply bind_inv in E. destruct E as (y & X & _). apply get_inv in X. clear - X EL EB. lia.
  - unfold qn in N1. rewrite Q in EL, N1. cbn [b2z] in N1. replace (18 + 0 - 1) with 17 in EL by reflexivity.
    destruct (Z.to_nat (17 - (rnz + 1 + lsh b a - 1) + 1)) as [|n] eqn:En; [clear - En N1 R18 RB; lia|]. cbn [long_rem] in EL.
    apply bind_inv in EL. destruct EL as (q & Eq & _). unfold guess_qhat in Eq. apply bind_inv in Eq. destruct Eq as (k & Ek & Eq). apply bind_inv in Eq. destruct Eq as (u & Eu & _). apply get_inv in Eu.
    assert (k = 18); [|clear - H Eu EB; lia]. destruct m; vm_compute in Ek; apply Ret_inj in Ek; symmetry; exact Ek.
Qed.

(** The condition of the specification. *)
Lemma lead_magnitude a b lnz rnz : wf b -> lead2 a b lnz rnz -> base ^ lnz <= magnitude a < base ^ (lnz + 1) /\ base ^ rnz <= magnitude b < base ^ (rnz + 1).
Proof.
  intros Hb L. pose proof (l2_a0 a b lnz rnz L) as A0. pose proof (l2_b0 a b lnz rnz L) as B0. pose proof (l2_at a b lnz rnz L) as TA. pose proof (l2_bt a b lnz rnz L) as TB.
  pose proof (l2_ap a b lnz rnz L) as PA. pose proof (l2_bp a b lnz rnz L) as PB. pose proof (pow_base_pos lnz ltac:(clear - A0; lia)) as P1. pose proof (pow_base_pos rnz ltac:(clear - B0; lia)) as P2.
  rewrite !base_S by (clear - A0 B0; lia). set (x := zn (fd_lsu a) lnz) in *. set (y := zn (fd_lsu b) rnz) in *. clearbody x y. set (p := base ^ lnz) in *. set (q := base ^ rnz) in *. clearbody p q. clear - TA TB PA PB P1 P2. nia.
Qed.

Lemma too_long_iff m a b lnz rnz : wf a -> wf b -> lead2 a b lnz rnz -> (too_long m a b <-> 1 <= rnz /\ lnz + 1 + lsh a b = 18 /\ (m = Debug \/ qge a b lnz rnz = true)).
Proof.
  intros Ha Hb L. pose proof (wf_counts a Ha) as CA. pose proof (wf_counts b Hb) as CB. destruct (lead_magnitude a b lnz rnz Hb L) as [MA MB].
  pose proof (l2_a0 a b lnz rnz L) as A0. pose proof (l2_b0 a b lnz rnz L) as B0.
  unfold too_long. 
  assert (VA : (Qabs (value a) == inject_Z (magnitude a) * pow10 (- (9 * fu a)))%Q) by (apply Qabs_value_pow; assumption).
  assert (VB : (Qabs (value b) == inject_Z (magnitude b) * pow10 (- (9 * fu b)))%Q) by (apply Qabs_value_pow; assumption).
  assert (BA : (pow10 (9 * (lnz - fu a)) <= Qabs (value a))%Q /\ (Qabs (value a) < pow10 (9 * (lnz + 1 - fu a)))%Q).
  { split; rewrite VA; [replace (9 * (lnz - fu a)) with (9 * lnz + - (9 * fu a)) by lia|replace (9 * (lnz + 1 - fu a)) with (9 * (lnz + 1) + - (9 * fu a)) by lia];
    rewrite pow10_add, pow10_base by (clear - A0; lia); [apply Qmult_le_compat_r; [rewrite <- Zle_Qle; apply MA|apply Qlt_le_weak, pow10_pos]|apply Qmult_lt_compat_r; [apply pow10_pos|rewrite <- Zlt_Qlt; apply MA]]. }
  assert (BB : (pow10 (9 * (rnz - fu b)) <= Qabs (value b))%Q /\ (Qabs (value b) < pow10 (9 * (rnz + 1 - fu b)))%Q).
  { split; rewrite VB; [replace (9 * (rnz - fu b)) with (9 * rnz + - (9 * fu b)) by lia|replace (9 * (rnz + 1 - fu b)) with (9 * (rnz + 1) + - (9 * fu b)) by lia];
    rewrite pow10_add, pow10_base by (clear - B0; lia); [apply Qmult_le_compat_r; [rewrite <- Zle_Qle; apply MB|apply Qlt_le_weak, pow10_pos]|apply Qmult_lt_compat_r; [apply pow10_pos|rewrite <- Zlt_Qlt; apply MB]]. }
  assert (PL : forall x y, (pow10 x < pow10 y)%Q -> x < y).
  { intros x y H. apply Z.nle_gt. intros K. apply (Qlt_not_le _ _ H), pow10_mono, K. }
  assert (KA : (pow10 72 <= Qabs (value a))%Q <-> 8 <= lnz - fu a).
  { split; intros H. - pose proof (PL _ _ (Qle_lt_trans _ _ _ H (proj2 BA))) as X. clear - X. lia. - eapply Qle_trans; [|apply BA]. apply pow10_mono. clear - H. lia. }
  assert (KB : fu b = 9 -> ((pow10 (-72) <= Qabs (value b))%Q <-> 1 <= rnz)).
  { intros F. rewrite F in *. split; intros H. - pose proof (PL _ _ (Qle_lt_trans _ _ _ H (proj2 BB))) as X. clear - X. lia. - eapply Qle_trans; [|apply BB]. apply pow10_mono. clear - H. lia. }
  assert (KQ : fu b = 9 -> fu a = 0 -> lnz = 8 -> ((Qabs (value b) * pow10 (9 * (9 - rnz)) <= Qabs (value a) * pow10 (-72))%Q <-> qge a b lnz rnz = true)).
  { intros F F' E8. rewrite VA, VB, F, F', E8. unfold qge. rewrite Z.geb_leb, Z.leb_le. change (pow10 (- (9 * 0))) with 1%Q. rewrite Qmult_1_r, <- Qmult_assoc, <- pow10_add.
    replace (- (9 * 9) + 9 * (9 - rnz)) with (- (9 * rnz)) by lia. 
    assert (S : forall x y, (x <= y)%Q <-> (x * (pow10 (9 * rnz) * pow10 72) <= y * (pow10 (9 * rnz) * pow10 72))%Q).
    { intros x y. symmetry. apply Qmult_le_r. apply Qmult_lt_0_compat; apply pow10_pos. }
    rewrite S. assert (E1 : (inject_Z (magnitude b) * pow10 (- (9 * rnz)) * (pow10 (9 * rnz) * pow10 72) == inject_Z (magnitude b * base ^ 8))%Q).
    { rewrite inject_Z_mult, <- pow10_base by lia. replace (9 * 8) with 72 by reflexivity. transitivity (inject_Z (magnitude b) * (pow10 (- (9 * rnz)) * pow10 (9 * rnz)) * pow10 72)%Q; [ring|]. rewrite pow10_inv. ring. }
    assert (E2 : (inject_Z (magnitude a) * pow10 (-72) * (pow10 (9 * rnz) * pow10 72) == inject_Z (magnitude a * base ^ rnz))%Q).
    { rewrite inject_Z_mult, <- pow10_base by (clear - B0; lia). transitivity (inject_Z (magnitude a) * (pow10 (-72) * pow10 72) * pow10 (9 * rnz))%Q; [ring|]. rewrite (pow10_inv 72 : (pow10 (-72) * pow10 72 == 1)%Q). ring. }
    rewrite E1, E2, <- Zle_Qle. reflexivity. }
  split.
  - intros (F & A & B & M). apply KA in A. apply (KB F) in B. assert (E8 : lnz = 8 /\ fu a = 0) by (clear - A A0 CA; lia). destruct E8 as [E8 F0].
    split; [exact B|]. split; [unfold lsh; clear - F F0 E8; lia|]. destruct M as [M|(k & K1 & K2)]; [left; exact M|right]. apply (KQ F F0 E8).
    assert (k = 9 - rnz); [|subst k; exact K2]. destruct K1 as [K1 K3]. rewrite F in BB.
    assert (X1 : 9 * (rnz - 9) + 9 * k < 9).
    { apply PL. rewrite pow10_add. eapply Qle_lt_trans; [|exact K3]. apply Qmult_le_compat_r; [apply BB|apply Qlt_le_weak, pow10_pos]. }
    assert (X2 : 0 < 9 * (rnz + 1 - 9) + 9 * k).
    { apply PL. rewrite pow10_add. eapply Qle_lt_trans; [exact K1|]. apply Qmult_lt_compat_r; [apply pow10_pos|apply BB]. }
    clear - X1 X2. lia.
  - intros (R1 & E & M). assert (X : lnz = 8 /\ fu a = 0 /\ fu b = 9) by (unfold lsh in E; clear - E A0 CA CB; lia). destruct X as (E8 & F0 & F).
    split; [exact F|]. split; [apply KA; clear - E8 F0; lia|]. split; [apply (KB F), R1|]. destruct M as [M|M]; [left; exact M|right]. exists (9 - rnz). split; [|apply (KQ F F0 E8), M].
    rewrite F in BB. split.
    + apply Qle_trans with (pow10 (9 * (rnz - 9)) * pow10 (9 * (9 - rnz)))%Q; [|apply Qmult_le_compat_r; [apply BB|apply Qlt_le_weak, pow10_pos]]. rewrite <- pow10_add. replace (9 * (rnz - 9) + 9 * (9 - rnz)) with 0 by lia. apply Qle_refl.
    + apply Qlt_le_trans with (pow10 (9 * (rnz + 1 - 9)) * pow10 (9 * (9 - rnz)))%Q; [apply Qmult_lt_compat_r; [apply pow10_pos|apply BB]|]. rewrite <- pow10_add. replace (9 * (rnz + 1 - 9) + 9 * (9 - rnz)) with 9 by lia. apply Qle_refl.
Qed.

(** Nothing of this size is zero, and the divisor is the smaller one. *)
Lemma too_long_order m a b : wf a -> wf b -> too_long m a b -> (Qabs (value b) < Qabs (value a))%Q /\ ~ (value a == 0)%Q /\ ~ (value b == 0)%Q.
Proof.
  intros Ha Hb (F & A & B & _). pose proof (wf_counts b Hb) as CB. assert (I : iu b = 0) by (clear - CB F; lia).
  pose proof (value_bound b Hb) as V. rewrite I in V. change (pow10 (9 * 0)) with 1%Q in V. split; [|split].
  - eapply Qlt_le_trans; [exact V|]. eapply Qle_trans; [|exact A]. vm_compute. discriminate.
  - intros Z. apply (Qle_not_lt _ _ A). assert (E : (Qabs (value a) == 0)%Q) by (rewrite Z; reflexivity). rewrite E. apply pow10_pos.
  - intros Z. apply (Qle_not_lt _ _ B). assert (E : (Qabs (value b) == 0)%Q) by (rewrite Z; reflexivity). rewrite E. apply pow10_pos.
Qed.
Lemma roomy m a b : wf a -> iu a + fu b <= 17 -> ~ too_long m a b.
Proof.
  intros Ha R (F & A & _). assert (X : ~ 9 * iu a <= 72).
  { intros X. apply (Qlt_not_le _ _ (value_bound a Ha)). eapply Qle_trans; [|exact A]. apply pow10_mono, X. }
  clear - X R F. lia.
Qed.
