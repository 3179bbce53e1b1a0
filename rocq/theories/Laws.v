(** * Laws that follow from the exactness theorems. *)
From Coq Require Import ZArith List Bool Lia QArith Qabs Qround Lqa.
From Coq Require Import ZifyBool ZifyNat.
From Verif Require Import Rust Tables Model_Base Model_Cmp Model_Decimal Model_Arith Spec Spec_Div Lib Cmp AddSub Sign AddTo AddSubQ Basics QLib RoundQ MulQ DivBasics DivQ Conv History.
Import ListNotations.
Open Scope Z_scope.

Lemma truncate_opp q : truncate (- q) = - truncate q.
Proof.
  unfold truncate. destruct (Qle_bool 0 q) eqn:A, (Qle_bool 0 (- q)) eqn:B.
  - apply Qle_bool_iff in A, B. assert (X : (q == 0)%Q) by (apply Qle_antisym; [|exact A]; lra).
    rewrite (Qfloor_comp _ _ X). assert (Y : (- q == 0)%Q) by (rewrite X; reflexivity). rewrite (Qfloor_comp _ _ Y). reflexivity.
  - rewrite (Qfloor_comp (- - q) q) by apply Qopp_involutive. reflexivity.
  - lia.
  - exfalso. assert (~ (0 <= q)%Q) by (intros X; apply Qle_bool_iff in X; congruence).
    assert (~ (0 <= - q)%Q) by (intros X; apply Qle_bool_iff in X; congruence). lra.
Qed.
Lemma truncate_pos q : (0 <= q)%Q -> truncate q = Qfloor q.
Proof. intros H. unfold truncate. apply Qle_bool_iff in H. rewrite H. reflexivity. Qed.
Lemma truncate_mono p q : (p <= q)%Q -> truncate p <= truncate q.
Proof.
  intros H. destruct (Qlt_le_dec p 0) as [P|P], (Qlt_le_dec q 0) as [R|R].
  - pose proof (truncate_opp p) as A. pose proof (truncate_opp q) as B. rewrite truncate_pos in A, B by lra.
    assert (X : Qfloor (- q) <= Qfloor (- p)) by (apply Qfloor_resp_le; lra). lia.
  - rewrite (truncate_pos q) by exact R. assert (X : 0 <= Qfloor q) by (change 0 with (Qfloor 0); apply Qfloor_resp_le, R).
    pose proof (truncate_opp p) as A. rewrite truncate_pos in A by lra.
    assert (Y : 0 <= Qfloor (- p)) by (change 0 with (Qfloor 0); apply Qfloor_resp_le; lra). lia.
  - exfalso. lra.
  - rewrite !truncate_pos by assumption. apply Qfloor_resp_le, H.
Qed.
Lemma truncate_at_mono p q f : (p <= q)%Q -> (truncate_at p f <= truncate_at q f)%Q.
Proof.
  intros H. unfold truncate_at. apply Qmult_le_compat_r; [|apply Qlt_le_weak, pow10_pos]. rewrite <- Zle_Qle. apply truncate_mono.
  apply Qmult_le_compat_r; [exact H|apply Qlt_le_weak, pow10_pos].
Qed.
(** Truncating to whole numbers after truncating to [f] places. *)
Lemma truncate_truncate q f : 0 <= f -> truncate (truncate_at q f) = truncate q.
Proof.
  intros Hf. assert (P : forall r, (0 <= r)%Q -> truncate (truncate_at r f) = truncate r).
  { intros r Hr. assert (Hr' : (0 <= r * pow10 f)%Q) by (apply Qmult_le_0_compat; [exact Hr|apply Qlt_le_weak, pow10_pos]).
    unfold truncate_at. rewrite (truncate_pos (r * pow10 f)) by exact Hr'.
    assert (F0 : 0 <= Qfloor (r * pow10 f)) by (change 0 with (Qfloor 0); apply Qfloor_resp_le, Hr').
    rewrite (truncate_pos (inject_Z _ * _)) by (apply Qmult_le_0_compat; [change 0%Q with (inject_Z 0); rewrite <- Zle_Qle; exact F0|apply Qlt_le_weak, pow10_pos]).
    rewrite floor_trunc by exact Hf. rewrite truncate_pos by exact Hr.
    pose proof (Qfloor_le r) as L. pose proof (Qlt_floor r) as U. set (n := Qfloor r) in *. clearbody n.
    pose proof (p10_pos f Hf) as P10. pose proof (pow10_nonneg f Hf) as E. pose proof (pow10_pos f) as PP.
    symmetry. apply (Z.div_unique_pos _ _ _ (Qfloor (r * pow10 f) - 10 ^ f * n)); [|lia].
    assert (A : n * 10 ^ f <= Qfloor (r * pow10 f)).
    { rewrite <- (Qfloor_Z (n * 10 ^ f)). apply Qfloor_resp_le. rewrite inject_Z_mult, <- E. apply Qmult_le_compat_r; [exact L|apply Qlt_le_weak, PP]. }
    assert (B : Qfloor (r * pow10 f) < (n + 1) * 10 ^ f).
    { rewrite Zlt_Qlt, inject_Z_mult, <- E. eapply Qle_lt_trans; [apply Qfloor_le|]. apply Qmult_lt_compat_r; [exact PP|exact U]. }
    clear - A B. rewrite Z.mul_add_distr_r in B. lia. }
  destruct (Qlt_le_dec q 0) as [N|N]; [|apply P, N].
  assert (X : (q == - - q)%Q) by (rewrite Qopp_involutive; reflexivity).
  assert (Y : (truncate_at q f == - truncate_at (- q) f)%Q).
  { unfold truncate_at. rewrite (truncate_comp (q * pow10 f) (- (- q * pow10 f))) by ring. rewrite truncate_opp, inject_Z_opp. ring. }
  rewrite (truncate_comp _ _ Y), truncate_opp, P by lra. rewrite truncate_opp. lia.
Qed.

(** A number with [k] fractional digits has [f >= k] of them. *)
Lemma multiple_more q z k f : k <= f -> (q == inject_Z z * pow10 (- k))%Q -> (q == inject_Z (z * 10 ^ (f - k)) * pow10 (- f))%Q.
Proof.
  intros H E. rewrite E, inject_Z_mult, <- pow10_nonneg by lia. rewrite <- Qmult_assoc, <- pow10_add. replace (f - k + - f) with (- k) by lia. reflexivity.
Qed.
Lemma truncate_at_exact q z k f : k <= f -> (q == inject_Z z * pow10 (- k))%Q -> (truncate_at q f == q)%Q.
Proof. intros H E. apply (truncate_at_multiple q f _ (multiple_more q z k f H E)). Qed.

(** The integral units of a quotient. *)
Lemma power_units q i k : (q < pow10 (9 * k))%Q -> 0 <= k -> (0 < i -> (pow10 (9 * (i - 1)) <= q)%Q) -> i <= k.
Proof.
  intros H K L. destruct (Z_le_gt_dec i k) as [G|G]; [exact G|]. exfalso.
  assert (X : (pow10 (9 * k) <= pow10 (9 * (i - 1)))%Q) by (apply pow10_le; lia). specialize (L ltac:(lia)).
  apply (Qlt_irrefl q). eapply Qlt_le_trans; [exact H|]. eapply Qle_trans; eassumption.
Qed.
Lemma units_mono x y : x <= y -> units_for x <= units_for y.
Proof. intros H. unfold units_for. apply Z.div_le_mono; lia. Qed.

(** The units of a converted integer. *)
Lemma from_u64_loop_units m fuel : forall k n l i l' i', 0 <= n < base ^ Z.of_nat k -> from_u64_loop m fuel n l i = Ret (l', i') -> i <= i' <= i + Z.of_nat k.
Proof.
  induction fuel as [|fuel IH]; intros k n l i l' i' Hn H; [discriminate H|]. cbn [from_u64_loop] in H.
  destruct (Z.eqb_spec n 0) as [E|E]; [injection H as _ <-; lia|]. destruct k as [|k]; [cbn in Hn; lia|].
  cbv zeta in H. apply bind_inv in H. destruct H as (p & _ & H). apply bind_inv in H. destruct H as (r & _ & H). apply bind_inv in H. destruct H as (l2 & _ & H).
  apply (IH k) in H; [lia|]. change UNIT with base. rewrite Nat2Z.inj_succ, Z.pow_succ_r in Hn by lia.
  split; [apply Z.div_pos; [lia|reflexivity]|]. apply Z.div_lt_upper_bound; [reflexivity|]. exact (proj2 Hn).
Qed.
Lemma from_u64_units m n d : 0 <= n < 10 ^ 18 -> from_u64 m n = Ret d -> iu d <= 2.
Proof.
  intros Hn H. unfold from_u64 in H. apply bind_inv in H. destruct H as ([l i] & E & H). injection H as <-.
  apply (from_u64_loop_units m 10 2) in E; [|exact Hn]. change (Z.of_nat 2) with 2 in E.
  assert (i = 0 \/ i = 1 \/ i = 2) as [->|[->| ->]] by lia; vm_compute; discriminate.
Qed.

Lemma truncate_at_opp q f : (truncate_at (- q) f == - truncate_at q f)%Q.
Proof. unfold truncate_at. rewrite (truncate_comp (- q * pow10 f) (- (q * pow10 f))) by ring. rewrite truncate_opp, inject_Z_opp. ring. Qed.
Lemma truncate_at_pos q f : (0 <= q)%Q -> (0 <= truncate_at q f /\ truncate_at q f <= q /\ q < truncate_at q f + pow10 (- f))%Q.
Proof.
  intros H. assert (H' : (0 <= q * pow10 f)%Q) by (apply Qmult_le_0_compat; [exact H|apply Qlt_le_weak, pow10_pos]).
  unfold truncate_at. rewrite truncate_pos by exact H'. pose proof (Qfloor_le (q * pow10 f)) as L. pose proof (Qlt_floor (q * pow10 f)) as U. rewrite inject_Z_plus in U.
  assert (F0 : (0 <= inject_Z (Qfloor (q * pow10 f)))%Q) by (change 0%Q with (inject_Z 0); rewrite <- Zle_Qle; change 0 with (Qfloor 0); apply Qfloor_resp_le, H').
  set (n := inject_Z (Qfloor (q * pow10 f))) in *. clearbody n. pose proof (pow10_pos (- f)) as P. 
  assert (E : (q == q * pow10 f * pow10 (- f))%Q). { rewrite <- Qmult_assoc, (Qmult_comm (pow10 f)), pow10_inv. ring. }
  split; [apply Qmult_le_0_compat; [exact F0|apply Qlt_le_weak, P]|]. split.
  - rewrite E. apply Qmult_le_compat_r; [exact L|apply Qlt_le_weak, P].
  - rewrite E at 1. setoid_replace (n * pow10 (- f) + pow10 (- f))%Q with ((n + 1) * pow10 (- f))%Q by ring. apply Qmult_lt_compat_r; [exact P|exact U].
Qed.
(** Truncating two numbers to different places keeps their order up to one unit in the shorter one's last place. *)
Lemma truncate_at_order p q f g : (p <= q)%Q -> (truncate_at p f < truncate_at q g + pow10 (- Z.min f g))%Q.
Proof.
  intros H. pose proof (pow10_le (- f) (- Z.min f g) ltac:(lia)) as A. pose proof (pow10_le (- g) (- Z.min f g) ltac:(lia)) as B. pose proof (pow10_pos (- Z.min f g)) as C.
  destruct (Qlt_le_dec p 0) as [P|P], (Qlt_le_dec q 0) as [R|R].
  - destruct (truncate_at_pos (- p) f ltac:(lra)) as (X1 & X2 & X3). destruct (truncate_at_pos (- q) g ltac:(lra)) as (Y1 & Y2 & Y3). rewrite truncate_at_opp in *. lra.
  - destruct (truncate_at_pos (- p) f ltac:(lra)) as (X1 & X2 & X3). destruct (truncate_at_pos q g ltac:(lra)) as (Y1 & Y2 & Y3). rewrite truncate_at_opp in *. lra.
  - exfalso. lra.
  - destruct (truncate_at_pos p f ltac:(lra)) as (X1 & X2 & X3). destruct (truncate_at_pos q g ltac:(lra)) as (Y1 & Y2 & Y3). lra.
Qed.
Lemma from_u64_units3 m n d : 0 <= n <= 18446744073709551615 -> from_u64 m n = Ret d -> int_digits d <= 27.
Proof.
  intros Hn H. unfold from_u64 in H. apply bind_inv in H. destruct H as ([l i] & E & H). injection H as <-.
  apply (from_u64_loop_units m 10 3) in E; [|change (base ^ Z.of_nat 3) with 1000000000000000000000000000; lia]. change (Z.of_nat 3) with 3 in E.
  assert (i = 0 \/ i = 1 \/ i = 2 \/ i = 3) as [->|[->|[->| ->]]] by lia; vm_compute; discriminate.
Qed.
Lemma from_i64_units3 m n d : -9223372036854775808 <= n <= 9223372036854775807 -> from_i64 m n = Ret d -> int_digits d <= 27.
Proof.
  intros Hn H. unfold from_i64 in H. destruct (Z.eqb_spec n (-9223372036854775808)) as [->|Nn]; [injection H as <-; vm_compute; discriminate|].
  destruct (Z.ltb_spec n 0).
  - rewrite i64_ok in H by lia. rewrite bind_Ret in H. cbv beta in H. rewrite as_usize_id in H by lia. apply bind_inv in H. destruct H as (d' & E & H). injection H as <-.
    destruct (Conv.from_u64_ok m (- n) ltac:(lia)) as (d2 & E2 & (W & _) & _). rewrite E in E2. injection E2 as <-.
    rewrite (proj1 (set_neg_same d' (wf_intg d' W))). apply (from_u64_units3 m (- n)); [lia|exact E].
  - rewrite as_usize_id in H by lia. apply (from_u64_units3 m n); [lia|exact H].
Qed.
