(** * Division where no units of the divisor are cut off. *)
From Coq Require Import ZArith List Bool Lia QArith Qabs.
From Coq Require Import ZifyBool ZifyNat.
From Verif Require Import Rust Tables Model_Base Model_Cmp Model_Arith Spec Spec_Div Spec_Guess Lib QLib Cmp AddSub Sign Mul DivBasics Div Div2 Div3 Div4 Div5 DivQ DivFit DivG DivG2 Robust Robust2 DivP DivDebug DivSafe Rem4 Rem7.
Import ListNotations.
Open Scope Z_scope.
Ltac Zify.zify_post_hook ::= Z.div_mod_to_equations.

(** What the two conditions say about one guess. *)
Definition guess_cond (m : build) (x y len j : Z) : Prop :=
  (m = Debug -> first_guess x y len j < base) /\ (1 <= j -> second_guess x y len j = quotient_unit x y j).

Lemma guess_cond_scale m x y len j e : 2 <= len -> 0 <= j -> 0 <= e -> 0 < y -> (guess_cond m (x * base ^ e) (y * base ^ e) (len + e) j <-> guess_cond m x y len j).
Proof. intros Hl Hj He Hy. destruct (guess_scale x y len j e Hl Hj He Hy) as (E1 & E2 & E3). unfold guess_cond. rewrite E1, E2, E3. reflexivity. Qed.

Lemma good_guess_cond m b2 rnz d0 d1 p nf B A U j : uok b2 -> zlen b2 = rnz + 1 -> 1 <= rnz <= 8 -> sg b2 0 (rnz + 1) = nf * B -> zn b2 rnz = d0 -> zn b2 (rnz - 1) = d1 ->
  0 < d0 -> 0 <= p -> 0 < nf -> 0 < B -> 0 <= U -> 0 <= j -> nf = base / (B / base ^ rnz + 1) ->
  (good_guess m rnz d0 d1 p (nf * B) (nf * A * base ^ U) j <-> guess_cond m (A * base ^ U) (B * base ^ p) (rnz + 1 + p) j).
Proof.
  intros U2 L2 R1 EB E0 E1 D0 Hp N1 BP HU J EN.
  assert (Pj : forall k, 0 <= k -> 0 < base ^ k) by (intros; apply pow_base_pos; assumption).
  assert (NF : norm_factor (B * base ^ p) (rnz + 1 + p) = nf).
  { unfold norm_factor. rewrite EN. do 2 f_equal. replace (rnz + 1 + p - 1) with (rnz + p) by (clear; lia). rewrite (base_pow_split rnz) by (clear - R1 Hp; lia).
    apply Z.div_mul_cancel_r; [pose proof (Pj rnz ltac:(clear - R1; lia)) as X; clear - X; lia|pose proof (Pj p Hp) as X; clear - X; lia]. }
  assert (T0 : nf * (B * base ^ p) / base ^ (rnz + 1 + p - 1) = d0).
  { replace (rnz + 1 + p - 1) with (rnz + p) by (clear; lia). rewrite (base_pow_split rnz), Z.mul_assoc by (clear - R1 Hp; lia). 
    rewrite Z.div_mul_cancel_r by first [pose proof (Pj rnz ltac:(clear - R1; lia)) as X; clear - X; lia|pose proof (Pj p Hp) as X; clear - X; lia].
    rewrite <- EB, top_div by (exact U2 || (clear - R1; lia)). replace (rnz + 1 - rnz) with 1 by (clear; lia). rewrite sg_1. exact E0. }
  assert (T1 : nf * (B * base ^ p) / base ^ (rnz + 1 + p - 2) = d0 * base + d1).
  { replace (rnz + 1 + p - 2) with (rnz - 1 + p) by (clear; lia). rewrite (base_pow_split (rnz - 1)), Z.mul_assoc by (clear - R1 Hp; lia).
    rewrite Z.div_mul_cancel_r by first [pose proof (Pj (rnz - 1) ltac:(clear - R1; lia)) as X; clear - X; lia|pose proof (Pj p Hp) as X; clear - X; lia].
    rewrite <- EB, top_div by (exact U2 || (clear - R1; lia)). replace (rnz + 1 - (rnz - 1)) with (1 + 1) by (clear; lia). rewrite sg_cons, sg_1 by (clear; lia). replace (rnz - 1 + 1) with rnz by (clear; lia). rewrite E0, E1. ring. }
  assert (RS : (nf * A * base ^ U) mod dshift (nf * B) 0 p (j + 1) = nf * rest (A * base ^ U) (B * base ^ p) j).
  { unfold rest, dshift. replace (nf * B * base ^ (0 + p + (j + 1))) with (nf * (B * base ^ p * base ^ (j + 1))) by (replace (0 + p + (j + 1)) with (p + (j + 1)) by (clear; lia); rewrite (base_pow_split p (j + 1)) by (clear - Hp J; lia); ring).
    rewrite <- Z.mul_assoc. apply mod_scale; [exact N1|]. apply Z.mul_pos_pos; [apply Z.mul_pos_pos; [exact BP|apply Pj, Hp]|apply Pj; clear - J; lia]. }
  assert (ED : dshift (nf * B) 0 p j = nf * (B * base ^ p * base ^ j)) by (unfold dshift; replace (0 + p + j) with (p + j) by (clear; lia); rewrite base_pow_split by (clear - Hp J; lia); ring).
  unfold good_guess, guess_cond, first_guess, second_guess, quotient_unit. cbv zeta. rewrite NF, T0, T1, RS, ED.
  replace (j + (rnz + 1 + p) - 1) with (p + rnz + j) by (clear; lia). replace (j + (rnz + 1 + p) - 2) with (p + rnz + j - 1) by (clear; lia).
  rewrite Z.div_mul_cancel_l; [| |clear - N1; lia].
  2:{ assert (0 < B * base ^ p * base ^ j); [|lia]. apply Z.mul_pos_pos; [apply Z.mul_pos_pos; [exact BP|apply Pj, Hp]|apply Pj, J]. }
  set (w := nf * rest (A * base ^ U) (B * base ^ p) j / base ^ (p + rnz + j)). assert (X : w < d0 * base <-> w / d0 < base); [|rewrite X; reflexivity]. clear - D0. split; intros H.
  - apply Z.div_lt_upper_bound; lia.
  - destruct (Z.lt_ge_cases w (d0 * base)) as [|C]; [assumption|exfalso]. apply (Z.lt_irrefl base). apply Z.le_lt_trans with (2 := H). apply Z.div_le_lower_bound; lia.
Qed.

(** All guesses of a division. *)
Lemma cond_all m x y len : 2 <= len -> base ^ (len - 1) <= y < base ^ len ->
  ((forall j, 0 <= j -> y * base ^ j <= x -> guess_cond m x y len j) <-> (m = Debug -> guesses_small x y) /\ right_but_last x y).
Proof.
  intros Hl By. pose proof (pow_base_pos (len - 1) ltac:(clear - Hl; lia)) as P.
  assert (LU : forall l, 2 <= l -> base ^ (l - 1) <= y < base ^ l -> l = len) by (intros l L B; apply (len_unique y); try assumption; clear - L Hl; lia).
  split.
  - intros H. split.
    + intros Hm l j L B J G. rewrite (LU l L B). apply (H j J G), Hm.
    + intros l j L B J G. rewrite (LU l L B). apply (H j ltac:(clear - J; lia) G). exact J.
  - intros (H1 & H2) j J G. split.
    + intros Hm. apply (H1 Hm len j); assumption.
    + intros J1. apply H2; assumption.
Qed.

Lemma body_safe m a b lnz rnz F U ig : wf a -> wf b -> lead2 a b lnz rnz -> 1 <= rnz ->
  0 <= F <= 4 -> let n := F + qk a b lnz rnz + b2z (qge a b lnz rnz) in n <= U -> 0 <= U <= 9 -> U = Z.max 0 (exp_of a b lnz rnz) + F ->
  U + lnz + 1 < 18 \/ qge a b lnz rnz = false -> fu b <= fu a + Z.max 0 (exp_of a b lnz rnz) ->
  let X := magnitude a * base ^ (F + fu b) in let Y := magnitude b * base ^ fu a in
  ((m = Debug -> guesses_small X Y) /\ right_but_last X Y ->
     exists r, div_body m (fd_lsu a) (fd_lsu b) zero_units lnz rnz (qge a b lnz rnz) U F ig n = Ret (Ok tt, mkfd (as_i8 ig) (9 * F) r) /\
       wrote zero_units r 0 (Z.max 0 n) /\ sg r 0 (Z.max 0 n) = quotient_units a b F) /\
  (m = Debug -> forall o, div_body m (fd_lsu a) (fd_lsu b) zero_units lnz rnz (qge a b lnz rnz) U F ig n = Ret o -> guesses_small X Y /\ right_but_last X Y).
Proof.
  intros Ha Hb L R0 HF n HnU HU EU Room Hcut. cbv zeta. pose proof (wf_counts a Ha) as CA. pose proof (wf_counts b Hb) as CB.
  pose proof (wf_zlen a Ha) as LA. pose proof (wf_zlen b Hb) as LB. pose proof (wf_uok a Ha) as Ua. pose proof (wf_uok b Hb) as Ub.
  pose proof (quotient_zero a b lnz rnz F L Ha Hb ltac:(clear - HF; lia)) as QZ.
  pose proof (quotient_lt a b lnz rnz L) as QL. pose proof (quotient_ge a b lnz rnz L) as QG.
  pose proof (l2_am a b lnz rnz L) as EA. pose proof (l2_bm a b lnz rnz L) as EB. pose proof (l2_ap a b lnz rnz L) as PA. pose proof (l2_bp a b lnz rnz L) as PB.
  pose proof (l2_a0 a b lnz rnz L) as A0. pose proof (l2_b0 a b lnz rnz L) as B0. pose proof (l2_bt a b lnz rnz L) as TB. pose proof (l2_at a b lnz rnz L) as TA.
  fold n in QZ. assert (En : n = F + exp_of a b lnz rnz) by (unfold n, exp_of; clear; lia). set (g := qge a b lnz rnz) in *.
  assert (Ek : exp_of a b lnz rnz = lnz - fu a - (rnz - fu b) + b2z g) by reflexivity.
  set (y := zn (fd_lsu b) rnz) in *. pose proof (nf_facts y PB) as NF. cbv zeta in NF. destruct NF as (N1 & N2 & _). pose proof (nf_half y PB) as N3.
  unfold div_body. replace (rnz =? 0) with false by (clear - R0; lia). cbv zeta. fold y.
  rewrite i64_ok by (clear - PB; unfold base in *; lia). mret. change UNIT with base. rewrite i64_div_ok by (clear - PB; unfold base in *; lia). mret.
  remember (base / (y + 1)) as nf eqn:ENF.
  set (la := firstn (Z.to_nat (lnz + 1)) (fd_lsu a)). set (lb := firstn (Z.to_nat (rnz + 1)) (fd_lsu b)).
  assert (Ela : sg la 0 (lnz + 1) = magnitude a) by (unfold la; rewrite sg_firstn by (clear - A0; lia); symmetry; exact EA).
  assert (Elb : sg lb 0 (rnz + 1) = magnitude b) by (unfold lb; rewrite sg_firstn by (clear - B0; lia); symmetry; exact EB).
  assert (NB : magnitude b <> 0).
  { pose proof (pow_base_pos rnz ltac:(clear - R0; lia)) as P. clear - P TB PB. set (Q := base ^ rnz) in *. clearbody Q. nia. }
  pose proof (magnitude_nonneg b Hb) as NB0. pose proof (magnitude_nonneg a Ha) as NA0.
  assert (EAB : exists A B, A = magnitude a /\ B = magnitude b) by eauto. destruct EAB as (A & B & EA' & EB'). rewrite <- EA', <- EB' in *.
  set (X := A * base ^ (F + fu b)). set (Y := B * base ^ fu a).
  pose proof (pow_base_pos lnz ltac:(clear - A0; lia)) as Pl. pose proof (pow_base_pos rnz ltac:(clear - R0; lia)) as Pr.
  assert (HnB : nf * B < base ^ (rnz + 1)).
  { rewrite base_S by (clear - R0; lia). clear - TB N1 N2 Pr. set (P := base ^ rnz) in *. clearbody P.
    apply Z.lt_le_trans with (nf * (P * (y + 1))); [apply Z.mul_lt_mono_pos_l; lia|]. replace (nf * (P * (y + 1))) with (nf * (y + 1) * P) by ring.
    apply Z.mul_le_mono_nonneg_r; lia. }
  assert (HnA : g = false -> nf * A < base ^ (lnz + 1)).
  { intros G. rewrite G in QL. cbn [b2z] in QL. rewrite Z.add_0_r in QL. rewrite base_S in * by (clear - A0 B0; lia).
    apply (Z.mul_lt_mono_pos_r (base ^ rnz)); [exact Pr|]. clear - QL HnB N1 Pl Pr. set (P := base ^ rnz) in *. set (T := base ^ lnz) in *. clearbody P T.
    apply Z.lt_trans with (nf * (B * T)); [replace (nf * A * P) with (nf * (A * P)) by ring; apply Z.mul_lt_mono_pos_l; lia|].
    replace (nf * (B * T)) with (nf * B * T) by ring. replace (base * T * P) with (base * P * T) by ring. apply Z.mul_lt_mono_pos_r; lia. }
  assert (Ula : uok la) by (apply Forall_firstn, Ua). assert (Ulb : uok lb) by (apply Forall_firstn, Ub).
  assert (Lla : zlen la = lnz + 1) by (unfold la; rewrite zlen_firstn; clear - A0 LA CA; lia).
  assert (Llb : zlen lb = rnz + 1) by (unfold lb; rewrite zlen_firstn; clear - B0 LB CB; lia).
  assert (Rm : U + lnz + 1 < 18 \/ nf * sg la 0 (lnz + 1) < base ^ (lnz + 1)).
  { rewrite Ela. destruct Room as [?|G]; [left; assumption|right; auto]. }
  assert (Rb : nf * sg lb 0 (rnz + 1) < base ^ (rnz + 1)) by (rewrite Elb; exact HnB).
  destruct (norm_bufs_ok m nf la lb U lnz rnz Ula Ulb N1 HU ltac:(clear - A0 CA; lia) ltac:(clear - B0 CB; lia) Lla Llb Rb Rm)
    as (buf1 & buf2 & E & U1 & L1 & E1 & U2 & L2 & E2).
  clear Rm Rb Lla Llb Ula Ulb.
  rewrite E. mret. rewrite Ela in E1. rewrite Elb in E2. clear E Ela Elb la lb.
  rewrite !get_ok by (clear - B0 CB L2 R0; lia). mret. mret.
  replace (as_i8 (F * DIGITS_PER_UNIT)) with (9 * F) by (change DIGITS_PER_UNIT with 9; rewrite as_i8_id by (clear - HF; lia); clear; lia).
  assert (HBp : 0 < B) by (clear - NB NB0; lia).
  assert (Hg : 0 <= b2z g <= 1) by (clear; destruct g; cbn; lia).
  set (fa := fu a) in *. set (fb := fu b) in *. assert (Hfa : 0 <= fa) by (clear - CA; lia). assert (Hfb : 0 <= fb) by (clear - CB; lia).
  set (len := rnz + 1 + fa).
  assert (Pf : 0 < base ^ fa) by (apply pow_base_pos, Hfa).
  assert (BB : base ^ rnz <= B < base * base ^ rnz).
  { clear - TB PB Pr. set (P := base ^ rnz) in *. clearbody P. split; [nia|]. apply Z.lt_le_trans with (1 := proj2 TB). rewrite (Z.mul_comm base). apply Z.mul_le_mono_nonneg_l; [clear - Pr; lia|clear - PB; lia]. }
  assert (BY : base ^ (len - 1) <= Y < base ^ len).
  { unfold len, Y. clear - BB Pf Hfa R0. replace (rnz + 1 + fa - 1) with (rnz + fa) by ring. rewrite (base_pow_split rnz), (base_pow_split (rnz + 1)), base_S by lia.
    split; [apply Z.mul_le_mono_nonneg_r; [lia|apply BB]|apply Z.mul_lt_mono_pos_r; [exact Pf|apply BB]]. }
  assert (L2' : 2 <= len) by (unfold len; clear - R0 Hfa; lia).
  assert (Hn : n = F + (lnz - fa) - (rnz - fb) + b2z g) by (rewrite En, Ek; clear; lia).
  assert (LE : forall j, 0 <= j -> (Y * base ^ j <= X <-> j < n)) by (intros j Hj; apply (unit_exists A B fa fb F lnz rnz (b2z g) n); try assumption; clear - HF A0 R0 Hg; lia).
  pose proof (cond_all m X Y len L2' BY) as CAL.
  destruct (Z.le_gt_cases n 0) as [N|N].
  { replace (Z.to_nat n) with O by (clear - N; clearbody n; lia). cbn [long_div]. mret. split.
    - intros _. exists zero_units. split; [reflexivity|]. replace (Z.max 0 n) with 0 by (clear - N; clearbody n; lia).
      split; [apply wrote_refl, uok_repeat0|]. rewrite sg_nil by (clear; lia). symmetry. apply QZ, N.
    - intros Hm _ _. assert (V : forall j, 0 <= j -> Y * base ^ j <= X -> guess_cond m X Y len j) by (intros j J G; apply LE in G; [clear - G J N; clearbody n; lia|exact J]).
      destruct (proj1 CAL V) as (V1 & V2). auto. }
  set (b2 := firstn (Z.to_nat (rnz + 1)) buf2).
  assert (Ub2 : uok b2) by (apply Forall_firstn, U2). assert (Lb2 : zlen b2 = rnz + 1) by (unfold b2; rewrite zlen_firstn, L2; clear - B0 CB; lia).
  assert (Eb2 : sg b2 0 (rnz + 1) = nf * B) by (unfold b2; rewrite sg_firstn by (clear - R0; lia); exact E2).
  assert (Zb2 : forall k, 0 <= k <= rnz -> zn b2 k = zn buf2 k) by (intros k Hk; unfold b2; rewrite zn_firstn by (clear - Hk; lia); replace (k <? Z.of_nat (Z.to_nat (rnz + 1))) with true by (clear - Hk; lia); reflexivity).
  pose proof (Zb2 rnz ltac:(clear - R0; lia)) as Z0. pose proof (Zb2 (rnz - 1) ltac:(clear - R0; lia)) as Z1.
  set (d0 := zn buf2 rnz) in *. set (d1 := zn buf2 (rnz - 1)) in *. pose proof (uok_zn buf2 rnz U2) as Bd0. fold d0 in Bd0.
  assert (Hd0 : base <= 2 * d0).
  { pose proof (top_bounds buf2 rnz U2 ltac:(clear - R0; lia)) as [_ T]. fold d0 in T. rewrite E2 in T.
    assert (V : nf * y < d0 + 1); [|clear - V N3; lia]. apply (Z.mul_lt_mono_pos_l (base ^ rnz)); [exact Pr|].
    eapply Z.le_lt_trans; [|exact T]. replace (base ^ rnz * (nf * y)) with (nf * (base ^ rnz * y)) by ring. apply Z.mul_le_mono_nonneg_l; [clear - N1; lia|apply TB]. }
  (* the window *)
  set (i := U + lnz + (if g then 0 else -1)).
  assert (Gi : i = U + lnz + b2z g - 1) by (unfold i, b2z; clear; destruct g; lia). clearbody i.
  assert (Ep : exists p, p = U - F + fa - fb) by eauto. destruct Ep as (p & Ep).
  assert (Zn : Z.of_nat (Z.to_nat n) = n) by (clear - N; clearbody n; lia).
  assert (Ipn : i = p + rnz + (Z.of_nat (Z.to_nat n) - 1)) by (rewrite Zn, Gi, Ep, Hn; clear; lia).
  assert (Hi : i + 1 < 18) by (rewrite Gi; destruct Room as [Q|Q]; [|rewrite Q; cbn [b2z]]; clear - Q Hg HU A0 CA; lia).
  assert (Hi0 : 0 <= i + 1) by (clear - Gi Hg HU A0; lia). assert (Hlg : 0 <= lnz + b2z g) by (clear - Hg A0; lia).
  assert (Hp : 0 <= p) by (rewrite Ep, EU; clear - Hcut; lia).
  pose proof (pow_base_pos U (proj1 HU)) as PU.
  assert (QR : nf * A * base ^ U * base ^ rnz < nf * B * base ^ (i + 1)).
  { replace (i + 1) with (lnz + b2z g + U) by (clear - Gi; lia). rewrite (base_pow_split (lnz + b2z g)) by (clear - Hlg HU; lia).
    replace (nf * A * base ^ U * base ^ rnz) with (nf * (A * base ^ rnz * base ^ U)) by ring. replace (nf * B * (base ^ (lnz + b2z g) * base ^ U)) with (nf * (B * base ^ (lnz + b2z g) * base ^ U)) by ring.
    apply Z.mul_lt_mono_pos_l; [clear - N1; lia|]. apply Z.mul_lt_mono_pos_r; [exact PU|exact QL]. }
  assert (ES : sg buf1 0 (i + 2) = nf * A * base ^ U).
  { rewrite (sg_top buf1 (i + 2) 18 U1 ltac:(clear - Hi Hi0; lia)); rewrite E1; [ring|]. replace (base ^ U * (nf * A)) with (nf * A * base ^ U) by ring.
    apply (Z.mul_lt_mono_pos_r (base ^ rnz)); [exact Pr|]. eapply Z.lt_trans; [exact QR|]. replace (i + 2) with (i + 1 + 1) by (clear; lia). rewrite (base_S (i + 1)) by exact Hi0.
    pose proof (pow_base_pos (i + 1) Hi0) as Pi. replace (base * base ^ (i + 1) * base ^ rnz) with (base * base ^ rnz * base ^ (i + 1)) by ring. rewrite <- base_S by (clear - R0; lia). apply Z.mul_lt_mono_pos_r; [exact Pi|exact HnB]. }
  assert (WN : 0 <= nf * A * base ^ U < dshift (nf * B) 0 p n).
  { unfold dshift. split; [apply Z.mul_nonneg_nonneg; [apply Z.mul_nonneg_nonneg; [clear - N1; lia|exact NA0]|clear - PU; lia]|].
    apply (Z.mul_lt_mono_pos_r (base ^ rnz)); [exact Pr|]. rewrite <- (Z.mul_assoc (nf * B)), <- base_pow_split by (clear - Hp R0 N; clearbody n; lia).
    replace (0 + p + n + rnz) with (i + 1) by (rewrite Ipn, Zn; clear; lia). exact QR. }
  assert (ENB : nf = base / (B / base ^ rnz + 1)).
  { rewrite ENF. do 2 f_equal. apply Z.div_unique with (B - base ^ rnz * y); [|clear; ring]. left. revert TB. clear. rewrite Z.mul_add_distr_l. set (P := base ^ rnz). clearbody P. lia. }
  assert (GC : forall j, 0 <= j -> (good_guess m rnz d0 d1 p (nf * B) (nf * A * base ^ U) j <-> guess_cond m X Y len j)).
  { intros j J. rewrite (good_guess_cond m b2 rnz d0 d1 p nf B A U j Ub2 Lb2 ltac:(clear - R0 B0 CB; lia) Eb2 Z0 Z1 ltac:(clear - Hd0; unfold base in *; lia) Hp ltac:(clear - N1; lia) HBp (proj1 HU) J ENB).
    assert (EX : A * base ^ U * base ^ fb = X * base ^ (U - F)).
    { unfold X. rewrite <- !Z.mul_assoc, <- !base_pow_split by (clear - HU Hfb HF EU; lia). do 2 f_equal. clear. lia. }
    assert (EY : B * base ^ p * base ^ fb = Y * base ^ (U - F)).
    { unfold Y. rewrite <- !Z.mul_assoc, <- !base_pow_split by (clear - HU Hfb Hfa Hp HF EU; lia). do 2 f_equal. rewrite Ep. clear. lia. }
    assert (El : rnz + 1 + p + fb = len + (U - F)) by (unfold len; rewrite Ep; clear; lia).
    rewrite <- (guess_cond_scale m (A * base ^ U) (B * base ^ p) (rnz + 1 + p) j fb) by (first [clear - R0 Hp; lia|exact J|exact Hfb|apply Z.mul_pos_pos; [exact HBp|apply pow_base_pos, Hp]]).
    rewrite EX, EY, El. apply guess_cond_scale; [exact L2'|exact J|clear - EU; lia|]. unfold Y. apply Z.mul_pos_pos; assumption. }
  destruct (long_div_safe m b2 rnz d0 d1 p (nf * B) Ub2 Lb2 ltac:(clear - R0 B0 CB; lia) Eb2 Z0 Z1 Hd0 Hp (Z.to_nat n) buf1 zero_units (nf * A * base ^ U)) as [LD1 LD2].
  - exact U1.
  - apply uok_repeat0.
  - rewrite <- Ipn. exact Hi.
  - exact L1.
  - reflexivity.
  - rewrite Zn. clear - HnU HU. clearbody n. lia.
  - rewrite Zn. exact WN.
  - rewrite <- Ipn. symmetry. exact ES.
  - rewrite <- Ipn in *. rewrite Zn in *. split.
    + intros V. pose proof (proj2 CAL V) as V'. destruct LD1 as (r & Er & W & Es).
      { intros j J. apply GC; [clear - J; lia|]. apply V'; [clear - J; lia|]. apply LE; clear - J; lia. }
      rewrite Er. mret. exists r. split; [reflexivity|]. replace (Z.max 0 n) with n by (clear - N; clearbody n; lia). split; [exact W|].
      rewrite Es. unfold dshift, quotient_units. rewrite <- EA', <- EB'. replace (nf * A * base ^ U) with (nf * (A * base ^ U)) by ring. replace (nf * B * base ^ (0 + p + 0)) with (nf * (B * base ^ p)) by (replace (0 + p + 0) with p by (clear; lia); ring).
      rewrite Z.div_mul_cancel_l; [|assert (0 < B * base ^ p); [apply Z.mul_pos_pos; [exact HBp|apply pow_base_pos, Hp]|clear - H; lia]|clear - N1; lia].
      apply scale_eq; [exact HBp|clear - HU Hp HF Hfa Hfb; lia..|]. fold fa fb. rewrite Ep. clear. lia.
    + intros Hm o H. apply bind_inv in H. destruct H as (r & Er & _).
      assert (V : forall j, 0 <= j -> Y * base ^ j <= X -> guess_cond m X Y len j) by (intros j J G; apply GC; [exact J|]; apply (LD2 Hm r Er); split; [exact J|]; apply LE; assumption).
      destruct (proj1 CAL V) as (V1 & V2). auto.
Qed.
