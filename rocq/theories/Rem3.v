(** * The remainder by any divisor whose quotient is guessed right. *)
From Coq Require Import ZArith List Bool Lia QArith.
From Coq Require Import ZifyBool ZifyNat.
From Verif Require Import Rust Tables Model_Base Model_Cmp Model_Arith Spec Lib Cmp AddSub Sign Mul DivBasics Div Div2 Div3 Div4 Div5 DivQ Rem Rem2.
Import ListNotations.
Open Scope Z_scope.
Ltac Zify.zify_post_hook ::= Z.div_mod_to_equations.

(** The aligned operands. *)
Definition al (a b : fd) : Z := magnitude a * base ^ lsh a b.

Lemma al_amag a b : wf a -> wf b -> amag a = al a b * base ^ (9 - Z.max (fu a) (fu b)).
Proof.
  intros Ha Hb. pose proof (wf_counts a Ha). pose proof (wf_counts b Hb). unfold amag, al, lsh. rewrite <- Z.mul_assoc, <- base_pow_split by (clear - H H0; lia). do 2 f_equal. clear - H H0. lia.
Qed.
Lemma al_amag' a b : wf a -> wf b -> amag b = al b a * base ^ (9 - Z.max (fu a) (fu b)).
Proof. intros Ha Hb. rewrite Z.max_comm. apply al_amag; assumption. Qed.

(** The number of units of the quotient. *)
Definition qn (a b : fd) (lnz rnz : Z) : Z := lnz + lsh a b - (rnz + lsh b a) + b2z (qge a b lnz rnz).

Lemma rem_bounds a b lnz rnz : wf a -> wf b -> lead2 a b lnz rnz -> al b a < al a b ->
  1 <= qn a b lnz rnz /\ al a b < al b a * base ^ qn a b lnz rnz /\ al b a * base ^ (qn a b lnz rnz - 1) <= al a b /\
  rnz + lsh b a <= lnz + lsh a b /\ rnz + lsh b a <= 8 /\ base ^ (rnz + lsh b a) <= al b a < base ^ (rnz + lsh b a + 1) /\
  al b a / base ^ (rnz + lsh b a) = zn (fd_lsu b) rnz.
Proof.
  intros Ha Hb L G. pose proof (wf_counts a Ha) as CA. pose proof (wf_counts b Hb) as CB.
  pose proof (quotient_lt a b lnz rnz L) as QL. pose proof (quotient_ge a b lnz rnz L) as QG.
  pose proof (l2_a0 a b lnz rnz L) as A0. pose proof (l2_b0 a b lnz rnz L) as B0. pose proof (l2_bt a b lnz rnz L) as TB. pose proof (l2_bp a b lnz rnz L) as PB.
  pose proof (b2z_range (qge a b lnz rnz)) as Bg. unfold qn. set (g := b2z (qge a b lnz rnz)) in *. clearbody g.
  assert (S1 : 0 <= lsh a b) by (unfold lsh; lia). assert (S2 : 0 <= lsh b a) by (unfold lsh; lia). assert (S3 : lsh a b = 0 \/ lsh b a = 0) by (unfold lsh; lia).
  unfold al in *. set (A := magnitude a) in *. set (B := magnitude b) in *. set (l := lsh a b) in *. set (r := lsh b a) in *. clearbody A B l r.
  pose proof (pow_base_pos l S1) as Pl. pose proof (pow_base_pos r S2) as Pr. pose proof (pow_base_pos rnz ltac:(clear - A0 B0 Bg S1 S2; lia)) as Pz.
  pose proof (pow_base_pos (rnz + r) ltac:(clear - A0 B0 Bg S1 S2; lia)) as Pzr.
  assert (QL' : A * base ^ l * base ^ (rnz + r) < B * base ^ r * base ^ (lnz + g + l)).
  { rewrite !base_pow_split by (clear - A0 B0 Bg S1 S2; lia). rewrite base_pow_split in QL by (clear - A0 B0 Bg S1 S2; lia). clear - QL Pl Pr. set (x := base ^ rnz) in *. set (y := base ^ lnz * base ^ g) in *. clearbody x y.
    replace (A * base ^ l * (x * base ^ r)) with (A * x * (base ^ l * base ^ r)) by ring. replace (B * base ^ r * (y * base ^ l)) with (B * y * (base ^ l * base ^ r)) by ring.
    apply Z.mul_lt_mono_pos_r; [apply Z.mul_pos_pos|]; assumption. }
  assert (QG' : B * base ^ r * base ^ (lnz + g + l) <= A * base ^ l * base ^ (rnz + r + 1)).
  { replace (rnz + r + 1) with (rnz + 1 + r) by (clear - A0 B0 Bg S1 S2; lia). rewrite (base_pow_split (lnz + g)), (base_pow_split (rnz + 1)) by (clear - A0 B0 Bg S1 S2; lia). clear - QG Pl Pr. set (x := base ^ (rnz + 1)) in *. set (y := base ^ (lnz + g)) in *. clearbody x y.
    replace (A * base ^ l * (x * base ^ r)) with (A * x * (base ^ l * base ^ r)) by ring. replace (B * base ^ r * (y * base ^ l)) with (B * y * (base ^ l * base ^ r)) by ring.
    apply Z.mul_le_mono_nonneg_r; [apply Z.lt_le_incl, Z.mul_pos_pos; assumption|assumption]. }
  assert (HB0 : 0 < B) by (clear - TB PB Pz; nia). assert (HBr : 0 < B * base ^ r) by (apply Z.mul_pos_pos; assumption).
  assert (XN : exists n, n = lnz + l - (rnz + r) + g) by eauto. destruct XN as [n XN]. rewrite <- XN. assert (XN' : lnz + g + l = n + (rnz + r)) by (clear - XN; lia). rewrite XN' in QL', QG'.
  assert (N1 : 1 <= n).
  { destruct (Z.le_gt_cases 1 n) as [?|N]; [assumption|exfalso].     assert (base ^ (n + (rnz + r)) <= base ^ (rnz + r)) by (apply Z.pow_le_mono_r; [reflexivity|clear - N; lia]).
    clear - QL' G H HBr Pzr. set (x := base ^ (n + (rnz + r))) in *. set (y := base ^ (rnz + r)) in *. set (u := A * base ^ l) in *. set (v := B * base ^ r) in *. clearbody x y u v.
    assert (v * x <= v * y) by (apply Z.mul_le_mono_nonneg_l; lia). assert (v * y < u * y) by (apply Z.mul_lt_mono_pos_r; lia). lia. }
  split; [exact N1|]. rewrite (base_pow_split n (rnz + r)) in QL' by (clear - N1 A0 B0 Bg S1 S2; lia). split.
  { apply (Z.mul_lt_mono_pos_r (base ^ (rnz + r))); [exact Pzr|]. rewrite <- (Z.mul_assoc (B * base ^ r)). exact QL'. }
  split.
  { apply (Z.mul_le_mono_pos_r _ _ (base ^ (rnz + r + 1))); [apply pow_base_pos; clear - B0 S2; lia|]. rewrite <- (Z.mul_assoc (B * base ^ r)), <- base_pow_split by (clear - N1 A0 B0 Bg S1 S2; lia).
    replace (n - 1 + (rnz + r + 1)) with (n + (rnz + r)) by (clear; lia). exact QG'. }
  split; [clear - N1 Bg XN; lia|]. split; [clear - N1 Bg S3 A0 B0 CA CB XN; lia|].
  replace (rnz + r + 1) with (rnz + 1 + r) by (clear - A0 B0 Bg S1 S2; lia). rewrite !base_pow_split by (clear - A0 B0 Bg S1 S2; lia). rewrite Z.pow_1_r. split.
  - clear - TB PB Pz Pr. set (x := base ^ rnz) in *. set (y := zn (fd_lsu b) rnz) in *. clearbody x y.
    assert (x * 1 <= x * y) by (apply Z.mul_le_mono_nonneg_l; lia). assert (x * (y + 1) <= x * base) by (apply Z.mul_le_mono_nonneg_l; lia).
    split; [apply Z.mul_le_mono_nonneg_r; lia|apply Z.mul_lt_mono_pos_r; lia].
  - rewrite Z.div_mul_cancel_r by (clear - Pr Pz; lia). symmetry. apply (Z.div_unique _ _ _ (B - base ^ rnz * zn (fd_lsu b) rnz)); [left; clear - TB; set (x := base ^ rnz) in *; clearbody x; lia|ring].
Qed.

Lemma mul_mod_l f x y : 0 < f -> 0 < y -> (f * x) mod (f * y) = f * (x mod y).
Proof. intros. apply Z.mul_mod_distr_l; lia. Qed.

(** A dividend that begins with less than the divisor keeps its length when it is normalised like the divisor. *)
Lemma norm_dividend a b lnz rnz nf : lead2 a b lnz rnz -> qge a b lnz rnz = false -> 0 < nf -> nf * magnitude b < base ^ (rnz + 1) -> nf * magnitude a < base ^ (lnz + 1).
Proof.
  intros L Q N H. pose proof (l2_a0 a b lnz rnz L) as A0. pose proof (l2_b0 a b lnz rnz L) as B0. unfold qge in Q. rewrite Z.geb_leb in Q. apply Z.leb_gt in Q.
  pose proof (pow_base_pos rnz ltac:(clear - B0; lia)) as Pr. pose proof (pow_base_pos lnz ltac:(clear - A0; lia)) as Pl.
  rewrite base_S in H |- * by (clear - A0 B0; lia). set (P := base ^ rnz) in *. set (R := base ^ lnz) in *. set (A := magnitude a) in *. set (B := magnitude b) in *. clearbody P R A B.
  apply (Z.mul_lt_mono_pos_r P); [exact Pr|]. apply Z.lt_trans with (nf * B * R).
  - replace (nf * A * P) with (nf * (A * P)) by ring. replace (nf * B * R) with (nf * (B * R)) by ring. apply Z.mul_lt_mono_pos_l; assumption.
  - replace (base * R * P) with (base * P * R) by ring. apply Z.mul_lt_mono_pos_r; assumption.
Qed.

(** ** The long case *)
Lemma rem_long_ok m a b lnz rnz : wf a -> wf b -> lead2 a b lnz rnz -> 1 <= rnz -> al b a < al a b -> lnz + 1 + lsh a b <= 17 \/ (m = Release /\ lnz + 1 + lsh a b = 18 /\ qge a b lnz rnz = false) ->
  (forall s, 0 <= s -> al b a * base ^ s <= al a b -> second_guess (al a b) (al b a) (rnz + lsh b a + 1) s = quotient_unit (al a b) (al b a) s) ->
  (m = Debug -> forall s, 0 <= s -> al b a * base ^ s <= al a b -> first_guess (al a b) (al b a) (rnz + lsh b a + 1) s < base) ->
  exists r nz, rem_long m (fd_lsu a) (fd_lsu b) lnz rnz (qge a b lnz rnz) (lsh a b) (lsh b a) = Ret (r, nz) /\
    uok r /\ zlen r = 9 /\ mod_eq (sg r 0 9) (al a b) (al b a) /\ lead_num (sg r 0 9) nz.
Proof.
  intros Ha Hb L R0 G Room T1 T2. assert (R18 : lnz + 1 + lsh a b <= 18) by (clear - Room; lia). pose proof (wf_counts a Ha) as CA. pose proof (wf_counts b Hb) as CB.
  pose proof (wf_zlen a Ha) as LA. pose proof (wf_zlen b Hb) as LB. pose proof (wf_uok a Ha) as Ua. pose proof (wf_uok b Hb) as Ub.
  destruct (rem_bounds a b lnz rnz Ha Hb L G) as (N1 & QL & QG & RB & R8 & LB1 & LB2).
  pose proof (l2_am a b lnz rnz L) as EA. pose proof (l2_bm a b lnz rnz L) as EB. pose proof (l2_bp a b lnz rnz L) as PB.
  pose proof (l2_a0 a b lnz rnz L) as A0. pose proof (l2_b0 a b lnz rnz L) as B0. pose proof (l2_bt a b lnz rnz L) as TB.
  assert (Hl0 : 0 <= lsh a b) by (unfold lsh; clear; lia). assert (Hr0 : 0 <= lsh b a) by (unfold lsh; clear; lia).
  set (y := zn (fd_lsu b) rnz) in *. pose proof (nf_facts y PB) as NF. cbv zeta in NF. destruct NF as (N2 & N3 & N4).
  unfold rem_long. cbv zeta. fold y.
  rewrite i64_ok by (clear - PB; unfold base in *; lia). mret. change UNIT with base. rewrite i64_div_ok by (clear - PB; unfold base in *; lia). mret.
  assert (ENF : norm_factor (al b a) (rnz + lsh b a + 1) = base / (y + 1)).
  { unfold norm_factor. replace (rnz + lsh b a + 1 - 1) with (rnz + lsh b a) by (clear; lia). rewrite LB2. reflexivity. }
  unfold second_guess, first_guess in T1, T2. rewrite ENF in T1, T2. cbv zeta in T1, T2. clear ENF LB2.
  set (nf := base / (y + 1)) in *. clearbody nf.
  set (la := firstn (Z.to_nat (lnz + 1)) (fd_lsu a)). set (lb := firstn (Z.to_nat (rnz + 1)) (fd_lsu b)).
  assert (Ela : sg la 0 (lnz + 1) = magnitude a) by (unfold la; rewrite sg_firstn by (clear - A0; lia); symmetry; exact EA).
  assert (Elb : sg lb 0 (rnz + 1) = magnitude b) by (unfold lb; rewrite sg_firstn by (clear - B0; lia); symmetry; exact EB).
  pose proof (pow_base_pos rnz ltac:(clear - B0; lia)) as Pr.
  assert (HnB : nf * magnitude b < base ^ (rnz + 1)).
  { rewrite base_S by (clear - B0; lia). clear - TB N2 N3 Pr. set (P := base ^ rnz) in *. set (B := magnitude b) in *. clearbody P B.
    apply Z.lt_le_trans with (nf * (P * (y + 1))); [apply Z.mul_lt_mono_pos_l; lia|]. replace (nf * (P * (y + 1))) with (nf * (y + 1) * P) by ring.
    apply Z.mul_le_mono_nonneg_r; lia. }
  assert (Ula : uok la) by (apply Forall_firstn, Ua). assert (Ulb : uok lb) by (apply Forall_firstn, Ub).
  assert (Lla : zlen la = lnz + 1) by (unfold la; rewrite zlen_firstn; clear - A0 LA CA; lia).
  assert (Llb : zlen lb = rnz + 1) by (unfold lb; rewrite zlen_firstn; clear - B0 LB CB; lia).
  assert (HnA : lnz + 1 + lsh a b < 18 \/ (lnz + 1 + lsh a b = 18 /\ nf * magnitude a < base ^ (lnz + 1))).
  { destruct Room as [?|(_ & X & Q)]; [left; clear - H; lia|right]. split; [exact X|]. apply (norm_dividend a b lnz rnz nf L Q); [clear - N2; lia|exact HnB]. }
  destruct (rem_bufs_ok m nf la lb (lsh a b) (lsh b a) lnz rnz Ula Ulb N2 Hl0 Hr0 ltac:(clear - A0; lia) ltac:(clear - B0; lia) Lla Llb ltac:(rewrite Elb; exact HnB)
     ltac:(rewrite Ela; exact HnA) ltac:(clear - R8; lia)) as (buf1 & buf2 & E & U1 & L1 & E1 & U2 & L2 & E2).
  rewrite E. mret. rewrite Ela in E1. rewrite Elb in E2. clear E Ela Elb la lb Ula Ulb Lla Llb.
  rewrite !get_ok by (clear - B0 R8 L2 R0 Hr0; lia). mret. mret. rewrite slice_ok by (clear - B0 R8 L2 Hr0; lia). mret. cbn [skipn Z.to_nat].
  replace (rnz + 1 + lsh b a - 0) with (rnz + lsh b a + 1) by (clear; lia). replace (rnz + 1 + lsh b a) with (rnz + lsh b a + 1) in * by (clear; lia).
  replace (base ^ lsh a b * (nf * magnitude a)) with (nf * al a b) in E1 by (unfold al; ring).
  replace (base ^ lsh b a * (nf * magnitude b)) with (nf * al b a) in E2 by (unfold al; ring).
  assert (HnB' : nf * al b a < base ^ (rnz + lsh b a + 1)).
  { unfold al. replace (rnz + lsh b a + 1) with (rnz + 1 + lsh b a) by (clear; lia). rewrite base_pow_split by (clear - R0 Hr0; lia). rewrite Z.mul_assoc.
    apply Z.mul_lt_mono_pos_r; [apply pow_base_pos, Hr0|exact HnB]. }
  assert (TB' : base ^ (rnz + lsh b a) * y <= al b a).
  { unfold al. rewrite base_pow_split by (clear - R0 Hr0; lia). replace (base ^ rnz * base ^ lsh b a * y) with (base ^ rnz * y * base ^ lsh b a) by ring.
    apply Z.mul_le_mono_nonneg_r; [apply Z.lt_le_incl, pow_base_pos, Hr0|apply TB]. }
  assert (Rlen : rnz + lsh b a <= lnz + lsh a b) by exact RB.
  replace (lnz + 1 + lsh a b) with (lnz + lsh a b + 1) in * by (clear; lia).
  set (k := rnz + lsh b a) in *. assert (K1 : 1 <= k) by (unfold k; clear - R0 Hr0; lia). set (kl := lnz + lsh a b) in *.
  set (d0 := zn buf2 k) in *. set (d1 := zn buf2 (k - 1)) in *.
  pose proof (uok_zn buf2 k U2) as Bd0. pose proof (uok_zn buf2 (k - 1) U2) as Bd1. fold d0 in Bd0. fold d1 in Bd1.
  set (b2 := firstn (Z.to_nat (k + 1)) buf2). assert (Ub2 : uok b2) by (apply Forall_firstn, U2).
  assert (Lb2 : zlen b2 = k + 1) by (unfold b2; rewrite zlen_firstn; clear - L2 K1 R8; lia).
  assert (Eb2 : sg b2 0 (k + 1) = nf * al b a) by (unfold b2; rewrite sg_firstn by (clear - K1; lia); exact E2).
  pose proof (pow_base_pos k ltac:(clear - K1; lia)) as Pk. pose proof (pow_base_pos (k - 1) ltac:(clear - K1; lia)) as Pk1.
  assert (D2 : div_eq (d0 * base + d1) (nf * al b a) (base ^ (k - 1))).
  { rewrite <- E2. pose proof (div_sg buf2 (k - 1) 2 (k + 1) U2 ltac:(clear - K1; lia) ltac:(lia) ltac:(clear; lia)
      ltac:(replace (k - 1 + 2) with (k + 1) by (clear; lia); apply sg_bound; [exact U2|clear - K1; lia])) as X.
    unfold div_eq in *. rewrite X. change 2 with (1 + 1). rewrite sg_cons by lia. rewrite sg_1. replace (k - 1 + 1) with k by (clear; lia). unfold d0, d1. ring. }
  assert (D1 : div_eq d0 (nf * al b a) (base ^ k)).
  { rewrite <- E2. pose proof (div_sg buf2 k 1 (k + 1) U2 ltac:(clear - K1; lia) ltac:(lia) ltac:(clear; lia) ltac:(apply sg_bound; [exact U2|clear - K1; lia])) as X.
    unfold div_eq in *. rewrite X. apply sg_1. }
  assert (Hd0 : base <= 4 * d0).
  { assert (nf * y <= d0); [|clear - H N4 Bd0; lia]. unfold div_eq in D1. rewrite <- D1. apply Z.div_le_lower_bound; [exact Pk|].
    replace (base ^ k * (nf * y)) with (nf * (base ^ k * y)) by ring. apply Z.mul_le_mono_nonneg_l; [clear - N2; lia|exact TB']. }
  set (X := al a b) in *. set (Y := al b a) in *.
  assert (HY : 0 < Y) by (clear - LB1 Pk; lia). assert (HX : 0 < X) by (clear - HY G; lia).
  set (n := qn a b lnz rnz) in *. assert (En : n = kl - k + b2z (qge a b lnz rnz)) by reflexivity.
  pose proof (b2z_range (qge a b lnz rnz)) as Bg.
  assert (Ei : kl + 1 + (if qge a b lnz rnz then 0 else -1) - 1 = (k + 1) - 2 + Z.of_nat (Z.to_nat n)).
  { clear - En N1. unfold b2z in En. destruct (qge a b lnz rnz); lia. }
  replace (Z.to_nat (kl + 1 + (if qge a b lnz rnz then 0 else -1) - 1 - (k + 1 - 1) + 1)) with (Z.to_nat n) by (rewrite Ei; clear - N1; lia). rewrite Ei. clear Ei.
  assert (G18 : kl + 1 + b2z (qge a b lnz rnz) <= 18) by (destruct Room as [X17|(_ & X17 & Xq)]; [clear - X17 Bg; lia|rewrite Xq; cbn [b2z]; clear - X17; lia]).
  set (g := b2z (qge a b lnz rnz)) in *. clearbody g n.
  assert (Sle : forall s, 0 <= s < n -> Y * base ^ s <= X).
  { intros s S. apply Z.le_trans with (2 := QG). apply Z.mul_le_mono_nonneg_l; [clear - HY; lia|]. apply Z.pow_le_mono_r; [reflexivity|clear - S; lia]. }
  assert (MM : forall s, 0 <= s -> (nf * X) mod (nf * Y * base ^ (s + 1)) = nf * rest X Y s).
  { intros s S. rewrite <- Z.mul_assoc. apply mul_mod_l; [clear - N2; lia|]. apply Z.mul_pos_pos; [exact HY|apply pow_base_pos; clear - S; lia]. }
  assert (ED : top_two (nf * Y) (k + 1) (d0 * base + d1)) by (unfold top_two; replace (k + 1 - 2) with (k - 1) by (clear; lia); exact D2).
  assert (TO : forall s, 0 <= s < Z.of_nat (Z.to_nat n) -> trial_ok (nf * X) (nf * Y) (k + 1) (d0 * base + d1) s).
  { intros s S. unfold trial_ok. rewrite MM by (clear - S; lia). specialize (T1 s ltac:(clear - S; lia) (Sle s ltac:(clear - S; lia))). unfold div_eq in D2.
    replace (k + 1 - 2) with (k - 1) in T1 by (clear; lia). rewrite D2 in T1. rewrite T1. unfold quotient_unit. rewrite <- (Z.mul_assoc nf Y).
    rewrite Z.div_mul_cancel_l; [reflexivity| |clear - N2; lia]. apply Z.neq_sym, Z.lt_neq, Z.mul_pos_pos; [exact HY|apply pow_base_pos; clear - S; lia]. }
  assert (TS : m = Debug -> forall s, 0 <= s < Z.of_nat (Z.to_nat n) -> trial_small (nf * X) (nf * Y) (k + 1) d0 s).
  { intros M s S. unfold trial_small. rewrite MM by (clear - S; lia). specialize (T2 M s ltac:(clear - S; lia) (Sle s ltac:(clear - S; lia))). unfold div_eq in D1.
    replace (k + 1 - 1) with k in T2 by (clear; lia). rewrite D1 in T2.
    set (u := nf * rest X Y s / base ^ (s + (k + 1) - 1)) in *. clearbody u. clear - T2 Hd0 Bd0.
    assert (P : 0 < d0) by (unfold base in *; lia). pose proof (Z.mul_succ_div_gt u d0 P) as G. set (v := u / d0) in *. clearbody v.
    assert (d0 * Z.succ v <= d0 * base) by (apply Z.mul_le_mono_nonneg_l; lia). lia. }
  assert (HV : nf * X < nf * Y * base ^ Z.of_nat (Z.to_nat n)).
  { replace (Z.of_nat (Z.to_nat n)) with n by (clear - N1; lia). rewrite <- Z.mul_assoc. apply Z.mul_lt_mono_pos_l; [clear - N2; lia|exact QL]. }
  destruct (long_rem_ok m d0 d1 b2 (k + 1) (nf * Y) Hd0 (proj2 Bd0) Bd1 Ub2 Lb2 ltac:(clear - K1; lia) Eb2 ED (Z.to_nat n) buf1 (nf * X) U1 L1
     ltac:(clear - En G18 N1; lia) (eq_sym E1) HV TO TS) as (bf & Er & Uf & Lf & Ef).
  rewrite Er. mret. clear Er TO TS HV MM Sle T1 T2 ED D1 D2. unfold mod_eq in Ef. rewrite mul_mod_l in Ef by (clear - N2 HY; lia).
  pose proof (Z.mod_pos_bound X Y HY) as BR.
  assert (XR : exists R, R = X mod Y) by eauto. destruct XR as [R XR]. rewrite <- XR in *.
  assert (RB2 : nf * R < base ^ (k + 1)).
  { apply Z.lt_trans with (nf * Y); [apply Z.mul_lt_mono_pos_l; [clear - N2; lia|apply BR]|exact HnB']. }
  assert (RB3 : nf * R < base ^ (kl + 1)).
  { apply Z.lt_le_trans with (1 := RB2). apply Z.pow_le_mono_r; [reflexivity|clear - RB; lia]. }
  assert (EX : (match m with Debug => get bf (kl + 1) | Release => Ret 0 end) = Ret 0).
  { destruct m; [|reflexivity]. destruct Room as [Room|[X1 _]]; [|discriminate X1]. rewrite get_ok by (clear - Lf Room RB K1; lia). f_equal.
    apply (sg_zero_inv bf (kl + 1) (18 - (kl + 1)) Uf); [|clear - Room; lia].
    assert (E18 : nf * R = sg bf 0 (kl + 1) + base ^ (kl + 1) * sg bf (kl + 1) (18 - (kl + 1))).
    { rewrite <- Ef. replace 18 with (kl + 1 + (18 - (kl + 1))) at 1 by (clear; lia). rewrite sg_app by (clear - Room RB K1; lia). reflexivity. }
    pose proof (sg_nonneg bf 0 (kl + 1) Uf) as G1. pose proof (sg_nonneg bf (kl + 1) (18 - (kl + 1)) Uf) as G2. pose proof (pow_base_pos (kl + 1) ltac:(clear - RB K1; lia)) as G3.
    clear - E18 G1 G2 G3 RB3. nia. }
  rewrite EX. mret. rewrite debug_assert_ok by reflexivity. mret. clear EX.
  assert (ES : sg bf 0 (kl + 1) = nf * R).
  { rewrite <- Ef. apply sg_top; [exact Uf|clear - R18 RB K1; lia|rewrite Ef; exact RB3]. }
  assert (NN : Z.of_nat (Z.to_nat (kl + 1)) = kl + 1) by (clear - RB K1; lia).
  assert (R9 : nf * R < nf * base ^ 9).
  { apply Z.mul_lt_mono_pos_l; [clear - N2; lia|]. apply Z.lt_trans with Y; [apply BR|]. apply Z.lt_le_trans with (1 := proj2 LB1). apply Z.pow_le_mono_r; [reflexivity|clear - R8; lia]. }
  destruct (denorm_ok m bf nf Uf N2 (Z.to_nat (kl + 1)) 0 zero_units (-1) ltac:(rewrite NN, Lf; clear - R18; lia) ltac:(clear - N2; lia) (uok_repeat0 9) zlen_zero_units
    ltac:(intros; apply zn_zero_units) (nf * R) ltac:(rewrite NN, ES; clear; ring) R9) as (r & nz & Ed & Ur & Lr & Sr & _ & LN).
  rewrite Ed. mret. rewrite (Z.mul_comm nf R), Z.mod_mul by (clear - N2; lia). rewrite debug_assert_ok by reflexivity. mret.
  rewrite (Z.mul_comm nf R), Z.div_mul in * by (clear - N2; lia).
  assert (S0 : sg zero_units 0 9 = 0) by reflexivity. rewrite S0, Z.add_0_l in Sr.
  exists r, nz. split; [reflexivity|]. split; [exact Ur|]. split; [exact Lr|]. unfold mod_eq. rewrite Sr. split; [exact XR|]. apply LN. clear; lia.
Qed.
