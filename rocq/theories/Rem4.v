(** * The remainder: the short case, and what [rem_abs] returns. *)
From Coq Require Import ZArith List Bool Lia QArith.
From Coq Require Import ZifyBool ZifyNat.
From Verif Require Import Rust Tables Model_Base Model_Cmp Model_Arith Spec Lib Cmp AddSub Sign Mul DivBasics Div Div2 Div3 Div4 Div5 DivQ Rem Rem2 Rem3.
Import ListNotations.
Open Scope Z_scope.
Ltac Zify.zify_post_hook ::= Z.div_mod_to_equations.

Lemma rem_short_ok m a b lnz : wf a -> wf b -> lead2 a b lnz 0 -> al b a < al a b -> lnz + 1 + lsh a b <= 18 ->
  exists r nz, rem_short m (fd_lsu a) (fd_lsu b) lnz (qge a b lnz 0) (lsh a b) (lsh b a) = Ret (r, nz) /\
    uok r /\ zlen r = 9 /\ mod_eq (sg r 0 9) (al a b) (al b a) /\ lead_num (sg r 0 9) nz.
Proof.
  intros Ha Hb L G Room. pose proof (wf_counts a Ha) as CA. pose proof (wf_counts b Hb) as CB.
  pose proof (wf_zlen a Ha) as LA. pose proof (wf_zlen b Hb) as LB. pose proof (wf_uok a Ha) as Ua. pose proof (wf_uok b Hb) as Ub.
  destruct (rem_bounds a b lnz 0 Ha Hb L G) as (N1 & QL & QG & RB & R8 & LB1 & _). rewrite !Z.add_0_l in *.
  pose proof (l2_am a b lnz 0 L) as EA. pose proof (l2_bm a b lnz 0 L) as EB. pose proof (l2_bp a b lnz 0 L) as PB. pose proof (l2_ap a b lnz 0 L) as PA.
  pose proof (l2_a0 a b lnz 0 L) as A0. pose proof (l2_at a b lnz 0 L) as TA.
  assert (Hl0 : 0 <= lsh a b) by (unfold lsh; clear; lia). assert (Hr0 : 0 <= lsh b a) by (unfold lsh; clear; lia).
  rewrite sg_1 in EB. set (d := zn (fd_lsu b) 0) in *.
  assert (EY : al b a = base ^ lsh b a * d) by (unfold al; rewrite EB; ring).
  set (la := firstn (Z.to_nat (lnz + 1)) (fd_lsu a)).
  assert (Ela : sg la 0 (lnz + 1) = magnitude a) by (unfold la; rewrite sg_firstn by (clear - A0; lia); symmetry; exact EA).
  assert (Ula : uok la) by (apply Forall_firstn, Ua).
  assert (Lla : zlen la = lnz + 1) by (unfold la; rewrite zlen_firstn; clear - A0 LA CA; lia).
  assert (Zla : zn la lnz = zn (fd_lsu a) lnz) by (unfold la; rewrite zn_firstn by (clear - A0; lia); replace (lnz <? Z.of_nat (Z.to_nat (lnz + 1))) with true by (clear - A0; lia); reflexivity).
  unfold rem_short. cbv zeta. fold la. rewrite !Z.add_0_l. fold d. clearbody la.
  replace (lsh a b + lnz + 1) with (lnz + 1 + lsh a b) by (clear; lia).
  rewrite write_slice_ok by (rewrite ?zlen_repeat; clear - Lla Hl0 A0 Room; lia). mret.
  set (buf := blit (repeat 0 18) (lsh a b) la).
  assert (Ubf : uok buf) by (apply uok_blit; [apply uok_repeat0|exact Ula]).
  assert (Lbf : zlen buf = 18) by (apply zlen_blit; [exact Hl0|rewrite zlen_repeat; clear - Lla Room; lia]).
  assert (Ebf : sg buf 0 18 = al a b).
  { unfold buf. rewrite (sg_blit_zero 18) by (try exact Hl0; clear - Lla Room; lia). rewrite Lla, Ela. unfold al. ring. }
  assert (Zbf : zn buf (lnz + lsh a b) = zn (fd_lsu a) lnz).
  { unfold buf. rewrite zn_blit by (rewrite ?zlen_repeat; clear - Lla Hl0 A0 Room; lia). replace ((lsh a b <=? lnz + lsh a b) && (lnz + lsh a b <? lsh a b + zlen la)) with true by (clear - Lla A0; lia).
    rewrite <- Zla. f_equal. clear. lia. }
  clearbody buf.
  assert (Q0 : qge a b lnz 0 = false -> zn (fd_lsu a) lnz < d).
  { unfold qge. rewrite EB. intros Q. pose proof (pow_base_pos lnz ltac:(clear - A0; lia)) as P. rewrite Z.pow_0_r, Z.mul_1_r, Z.geb_leb in Q. apply Z.leb_gt in Q.
    clear - Q P TA. set (x := base ^ lnz) in *. set (u := zn (fd_lsu a) lnz) in *. clearbody x u. apply (Z.mul_lt_mono_pos_l x); [exact P|]. lia. }
  assert (Ern : exists rem, (if (if qge a b lnz 0 then 0 else -1) <? 0 then Ret (zn (fd_lsu a) lnz) else Ret 0) = Ret rem /\ 0 <= rem < d /\
     rem * base ^ (qn a b lnz 0) + sg buf (lsh b a) (qn a b lnz 0) = sg buf (lsh b a) (lnz + 1 + lsh a b - lsh b a)).
  { unfold qn, b2z in *. destruct (qge a b lnz 0).
    - exists 0. split; [reflexivity|]. split; [clear - PB; lia|]. rewrite Z.mul_0_l, Z.add_0_l. f_equal. clear. lia.
    - exists (zn (fd_lsu a) lnz). split; [reflexivity|]. split; [split; [clear - PA; lia|apply Q0; reflexivity]|].
      replace (lnz + 1 + lsh a b - lsh b a) with ((lnz + lsh a b - (0 + lsh b a) + 0) + 1) by (clear; lia). rewrite sg_snoc by (clear - N1; lia).
      replace (lsh b a + (lnz + lsh a b - (0 + lsh b a) + 0)) with (lnz + lsh a b) by (clear; lia). rewrite Zbf. clear. ring. }
  destruct Ern as (rem & -> & Hrem & Erem). mret. set (n := qn a b lnz 0) in *. 
  assert (En : lnz + 1 + lsh a b - 1 + (if qge a b lnz 0 then 0 else -1) = lsh b a + n - 1).
  { unfold n, qn, b2z. clear. destruct (qge a b lnz 0); lia. }
  rewrite En. replace (Z.to_nat (lsh b a + n - 1 - lsh b a + 1)) with (Z.to_nat n) by (clear; lia).
  assert (NN : Z.of_nat (Z.to_nat n) = n) by (clear - N1; lia).
  assert (Nn : lsh b a + n <= 18) by (clear - En Room; destruct (qge a b lnz 0); lia). clear En. clearbody n.
  rewrite short_rem_ok; [|exact Ubf|clear - PB; unfold base in *; lia|rewrite NN; clear - Hr0; lia|rewrite Lbf; clear - Nn; lia|exact Hrem]. mret.
  rewrite NN. replace (lsh b a + n - 1 + 1 - n) with (lsh b a) by (clear; lia). rewrite Erem. clear Erem.
  replace (lsh b a + n - 1 - n + 1) with (lsh b a) by (clear; lia).
  assert (EX : div_eq (sg buf (lsh b a) (lnz + 1 + lsh a b - lsh b a)) (al a b) (base ^ lsh b a)).
  { rewrite <- Ebf. apply div_sg; [exact Ubf|exact Hr0|clear - RB A0 Hl0; lia|clear - Room; lia|]. rewrite Ebf. unfold al. replace (lsh b a + (lnz + 1 + lsh a b - lsh b a)) with (lnz + 1 + lsh a b) by (clear; lia).
    rewrite base_pow_split by (clear - A0 Hl0; lia). apply Z.mul_lt_mono_pos_r; [apply pow_base_pos, Hl0|]. rewrite EA. apply sg_bound; [exact Ua|clear - A0; lia]. }
  unfold div_eq in EX. rewrite <- EX. clear EX.
  pose proof (pow_base_pos (lsh b a) Hr0) as Ps.
  assert (EM : al a b mod al b a = sg buf 0 (lsh b a) + base ^ lsh b a * ((al a b / base ^ lsh b a) mod d)).
  { rewrite EY, Z.rem_mul_r by (clear - Ps PB; lia). f_equal. rewrite <- Ebf. replace 18 with (lsh b a + (18 - lsh b a)) by (clear; lia). rewrite sg_app by (clear - Hr0 R8; lia).
    rewrite (Z.mul_comm (base ^ lsh b a)), Z.mod_add by (clear - Ps; lia). apply Z.mod_small, sg_bound; [exact Ubf|exact Hr0]. }
  unfold mod_eq. rewrite EM. clear EM.
  pose proof (Z.mod_pos_bound (al a b / base ^ lsh b a) d ltac:(clear - PB; lia)) as Brm. set (rm := (al a b / base ^ lsh b a) mod d) in *. clearbody rm.
  set (s := lsh b a) in *. clearbody s.
  assert (ER : exists r0 nz0, (if rm >? 0 then r <- set zero_units s (as_i32 rm) ;; Ret (r, s) else Ret (zero_units, -1)) = Ret (r0, nz0) /\
    uok r0 /\ zlen r0 = 9 /\ sg r0 s (9 - s) = rm /\ (0 < rm -> nz0 = s) /\ (rm = 0 -> nz0 = -1)).
  { destruct (Z.gtb_spec rm 0) as [R|R].
    - rewrite set_ok by (rewrite zlen_zero_units; clear - Hr0 R8; lia). mret. rewrite as_i32_id by (clear - Brm PB; unfold base in *; lia). do 2 eexists. split; [reflexivity|].
      split; [apply uok_upd; [apply uok_repeat0|clear - Brm PB; lia]|]. split; [rewrite zlen_upd; apply zlen_zero_units|]. split; [|split; [reflexivity|clear - R; lia]].
      replace (9 - s) with (1 + (8 - s)) by (clear; lia). rewrite sg_cons by (clear - R8; lia). rewrite zn_upd_eq by (rewrite zlen_zero_units; clear - Hr0 R8; lia).
      rewrite (sg_0 _ (s + 1)); [clear; ring|]. intros k K. rewrite zn_upd_ne by (rewrite ?zlen_zero_units; clear - Hr0 R8 K; lia). apply zn_zero_units.
    - do 2 eexists. split; [reflexivity|]. split; [apply uok_repeat0|]. split; [apply zlen_zero_units|]. split; [|split; [clear - R; lia|reflexivity]].
      rewrite sg_0 by (intros; apply zn_zero_units). clear - R Brm. lia. }
  destruct ER as (r0 & nz0 & -> & U0 & L0 & S0 & Z1 & Z2). mret.
  assert (NS : Z.of_nat (Z.to_nat s) = s) by (clear - Hr0; lia).
  destruct (copy_rest_ok buf Ubf (Z.to_nat s) r0 nz0 ltac:(rewrite NS, Lbf; clear - R8; lia) U0 ltac:(rewrite NS, L0; clear - R8; lia)) as (r & nz & Ec & W & Sc & K1 & K2).
  rewrite NS in *. rewrite Ec. exists r, nz. split; [reflexivity|]. split; [apply W|]. split; [rewrite (wrote_zlen _ _ _ _ W); exact L0|].
  assert (Sr : sg r 0 9 = sg buf 0 s + base ^ s * rm).
  { replace 9 with (s + (9 - s)) by (clear; lia). rewrite sg_app by (clear - Hr0 R8; lia). rewrite Sc. do 2 f_equal. rewrite <- S0. apply (wrote_sg _ _ _ _ _ _ W); [clear - Hr0; lia|right; clear; lia]. }
  rewrite Sr. split; [reflexivity|]. pose proof (sg_bound buf 0 s Ubf Hr0) as Blo.
  destruct (Z.eq_dec rm 0) as [R|R].
  - rewrite R, Z.mul_0_r, Z.add_0_r. apply K2. rewrite (Z2 R). clear. lia.
  - assert (R' : 0 < rm) by (clear - R Brm; lia). rewrite (Z1 R') in *. rewrite (K1 Hr0). right. split; [exact Hr0|]. rewrite base_S by exact Hr0.
    clear - Blo R' Brm PB Ps. set (P := base ^ s) in *. clearbody P. assert (P * 1 <= P * rm) by (apply Z.mul_le_mono_nonneg_l; lia). assert (P * rm <= P * (base - 1)) by (apply Z.mul_le_mono_nonneg_l; lia). lia.
Qed.

(** ** Right guesses, on the common scale and on the aligned one *)

Lemma guess_scale x y len j e : 2 <= len -> 0 <= j -> 0 <= e -> 0 < y ->
  first_guess (x * base ^ e) (y * base ^ e) (len + e) j = first_guess x y len j /\
  second_guess (x * base ^ e) (y * base ^ e) (len + e) j = second_guess x y len j /\
  quotient_unit (x * base ^ e) (y * base ^ e) j = quotient_unit x y j.
Proof.
  intros Hl Hj He Hy. pose proof (pow_base_pos e He) as Pe. pose proof (pow_base_pos j Hj) as Pj. pose proof (pow_base_pos (j + 1) ltac:(clear - Hj; lia)) as Pj1.
  assert (ER : rest (x * base ^ e) (y * base ^ e) j = rest x y j * base ^ e).
  { unfold rest. replace (y * base ^ e * base ^ (j + 1)) with (y * base ^ (j + 1) * base ^ e) by ring. rewrite Z.mul_mod_distr_r; [reflexivity|clear - Hy Pj1; nia|clear - Pe; lia]. }
  assert (DC : forall u k, 0 <= k -> u * base ^ e / base ^ (k + e) = u / base ^ k).
  { intros u k K. pose proof (pow_base_pos k K). rewrite base_pow_split by (clear - K He; lia). apply Z.div_mul_cancel_r; [clear - H; lia|clear - Pe; lia]. }
  assert (EN : norm_factor (y * base ^ e) (len + e) = norm_factor y len).
  { unfold norm_factor. replace (len + e - 1) with (len - 1 + e) by (clear; lia). rewrite DC by (clear - Hl; lia). reflexivity. }
  unfold first_guess, second_guess. rewrite EN, ER. cbv zeta. set (f := norm_factor y len). rewrite !Z.mul_assoc.
  replace (j + (len + e) - 1) with (j + len - 1 + e) by (clear; lia). replace (j + (len + e) - 2) with (j + len - 2 + e) by (clear; lia).
  replace (len + e - 1) with (len - 1 + e) by (clear; lia). replace (len + e - 2) with (len - 2 + e) by (clear; lia). rewrite !DC by (clear - Hl Hj He; lia).
  split; [reflexivity|]. split; [reflexivity|]. unfold quotient_unit. rewrite ER. replace (y * base ^ e * base ^ j) with (y * base ^ j * base ^ e) by ring.
  apply Z.div_mul_cancel_r; [clear - Hy Pj; nia|clear - Pe; lia].
Qed.

Lemma guesses_aligned a b lnz rnz s : wf a -> wf b -> lead2 a b lnz rnz -> 1 <= rnz -> al b a < al a b -> 0 <= s -> al b a * base ^ s <= al a b ->
  (guesses_right (scaled a) (scaled b) -> second_guess (al a b) (al b a) (rnz + lsh b a + 1) s = quotient_unit (al a b) (al b a) s) /\
  (guesses_small (scaled a) (scaled b) -> first_guess (al a b) (al b a) (rnz + lsh b a + 1) s < base).
Proof.
  intros Ha Hb L R0 G S0 HS. destruct (rem_bounds a b lnz rnz Ha Hb L G) as (_ & _ & _ & _ & _ & LB1 & _).
  pose proof (wf_counts a Ha) as CA. pose proof (wf_counts b Hb) as CB. assert (Hr0 : 0 <= lsh b a) by (unfold lsh; clear; lia).
  change scaled with amag. unfold guesses_right, guesses_small. rewrite (al_amag a b Ha Hb), (al_amag' a b Ha Hb).
  assert (E0 : 0 <= 9 - Z.max (fu a) (fu b)) by (clear - CA CB; lia). set (e := 9 - Z.max (fu a) (fu b)) in *. clearbody e.
  set (x := al a b) in *. set (y := al b a) in *. clearbody x y. set (k := rnz + lsh b a) in *. assert (K1 : 1 <= k) by (clear - R0 Hr0; unfold k; lia). clearbody k.
  pose proof (pow_base_pos k ltac:(clear - K1; lia)) as Pk. pose proof (pow_base_pos e E0) as Pe. assert (Hy : 0 < y) by (clear - LB1 Pk; lia).
  destruct (guess_scale x y (k + 1) s e ltac:(clear - K1; lia) S0 E0 Hy) as (F1 & F2 & F3).
  assert (B1 : 2 <= k + 1 + e) by (clear - K1 E0; lia).
  assert (B2 : base ^ (k + 1 + e - 1) <= y * base ^ e < base ^ (k + 1 + e)).
  { replace (k + 1 + e - 1) with (k + e) by (clear; lia). rewrite !(base_pow_split _ e) by (clear - K1 E0; lia).
    split; [apply Z.mul_le_mono_nonneg_r; [clear - Pe; lia|apply LB1]|apply Z.mul_lt_mono_pos_r; [exact Pe|apply LB1]]. }
  assert (B3 : y * base ^ e * base ^ s <= x * base ^ e).
  { replace (y * base ^ e * base ^ s) with (y * base ^ s * base ^ e) by ring. apply Z.mul_le_mono_nonneg_r; [clear - Pe; lia|exact HS]. }
  split; intros T; specialize (T (k + 1 + e) s B1 B2 S0 B3).
  - rewrite F2, F3 in T. exact T.
  - rewrite F1 in T. exact T.
Qed.

(** Divisors of up to two significant units. *)
Lemma two_units_right x y z k : 0 < z < base ^ 2 -> 0 <= k -> y = z * base ^ k -> guesses_right x y.
Proof.
  intros Hz Hk Ey len j Hl By Hj _.
  assert (K2 : len - 2 <= k).
  { pose proof (lead_exp z k 2 (len - 1) y Hz Hk ltac:(lia) ltac:(lia) Ey (proj1 By)). lia. }
  unfold second_guess, quotient_unit. cbv zeta. set (r := rest x y j). assert (Hf : 0 < norm_factor y len).
  { unfold norm_factor. pose proof (pow_base_pos (len - 1) ltac:(lia)). assert (0 <= y / base ^ (len - 1) < base).
    { split; [apply Z.div_pos; lia|]. apply Z.div_lt_upper_bound; [assumption|]. rewrite Z.mul_comm, <- base_S by lia. replace (len - 1 + 1) with len by lia. apply By. }
    apply Z.div_str_pos. clear - H0. set (t := y / base ^ (len - 1)) in *. clearbody t. lia. }
  set (f := norm_factor y len) in *. clearbody f r.
  pose proof (pow_base_pos (len - 2) ltac:(lia)) as P2. pose proof (pow_base_pos j Hj) as Pj. pose proof (pow_base_pos (k - (len - 2)) ltac:(lia)) as Pk.
  set (w := z * base ^ (k - (len - 2))). assert (Ew : y = w * base ^ (len - 2)).
  { unfold w. rewrite Ey, <- Z.mul_assoc, <- base_pow_split by lia. do 2 f_equal. lia. }
  assert (Hw : 0 < w) by (unfold w; apply Z.mul_pos_pos; lia). clearbody w.
  replace (j + len - 2) with (len - 2 + j) by lia. rewrite base_pow_split by lia. rewrite Ew. rewrite Z.mul_assoc, Z.div_mul by lia. 
  rewrite Z.div_div by (try apply Z.mul_pos_pos; clear - P2 Pj Hf Hw; nia).
  replace (base ^ (len - 2) * base ^ j * (f * w)) with (f * (w * base ^ (len - 2) * base ^ j)) by ring.
  apply Z.div_mul_cancel_l; [clear - P2 Pj Hw|clear - Hf; lia]. apply Z.neq_sym, Z.lt_neq, Z.mul_pos_pos; [apply Z.mul_pos_pos|]; assumption.
Qed.
Lemma one_unit_small x y z k : 0 < z < base -> 0 <= k -> y = z * base ^ k -> guesses_small x y.
Proof.
  intros Hz Hk Ey len j Hl By Hj _.
  assert (K2 : len - 1 <= k).
  { pose proof (lead_exp z k 1 (len - 1) y ltac:(rewrite Z.pow_1_r; exact Hz) Hk ltac:(lia) ltac:(lia) Ey (proj1 By)). lia. }
  unfold first_guess. cbv zeta. pose proof (pow_base_pos (len - 1) ltac:(lia)) as P2. pose proof (pow_base_pos j Hj) as Pj. pose proof (pow_base_pos (k - (len - 1)) ltac:(lia)) as Pk.
  assert (Hf : 0 < norm_factor y len).
  { unfold norm_factor. assert (0 <= y / base ^ (len - 1) < base).
    { split; [apply Z.div_pos; lia|]. apply Z.div_lt_upper_bound; [assumption|]. rewrite Z.mul_comm, <- base_S by lia. replace (len - 1 + 1) with len by lia. apply By. }
    apply Z.div_str_pos. clear - H. set (t := y / base ^ (len - 1)) in *. clearbody t. lia. }
  assert (Hy : 0 < y) by lia.
  assert (Br : 0 <= rest x y j < y * base ^ (j + 1)).
  { unfold rest. apply Z.mod_pos_bound, Z.mul_pos_pos; [exact Hy|apply pow_base_pos; lia]. }
  set (r := rest x y j) in *. set (f := norm_factor y len) in *. clearbody f r.
  set (w := z * base ^ (k - (len - 1))). assert (Ew : y = w * base ^ (len - 1)).
  { unfold w. rewrite Ey, <- Z.mul_assoc, <- base_pow_split by lia. do 2 f_equal. lia. }
  assert (Hw : 0 < w) by (unfold w; apply Z.mul_pos_pos; lia). clearbody w.
  replace (j + len - 1) with (len - 1 + j) by lia. rewrite base_pow_split by lia. rewrite Ew in *. rewrite (Z.mul_assoc f w), Z.div_mul by lia.
  rewrite Z.div_div by (try apply Z.mul_pos_pos; clear - P2 Pj Hf Hw; nia).
  apply Z.div_lt_upper_bound.
  - apply Z.mul_pos_pos; apply Z.mul_pos_pos; assumption.
  - replace (base ^ (len - 1) * base ^ j * (f * w) * base) with (f * (w * base ^ (len - 1) * (base * base ^ j))) by ring. rewrite <- base_S by lia. apply Z.mul_lt_mono_pos_l; [exact Hf|apply Br].
Qed.
Lemma significant_right a b : wf b -> significant_units 2 b -> guesses_right (scaled a) (scaled b).
Proof.
  intros Hb (x & k & Hx & Hk & E). pose proof (wf_counts b Hb). apply (two_units_right _ _ x (k + (9 - fu b))); [exact Hx|lia|].
  unfold scaled. rewrite E, base_pow_split by lia. ring.
Qed.
Lemma significant_small a b : wf b -> significant_units 1 b -> guesses_small (scaled a) (scaled b).
Proof.
  intros Hb (x & k & Hx & Hk & E). pose proof (wf_counts b Hb). rewrite Z.pow_1_r in Hx. apply (one_unit_small _ _ x (k + (9 - fu b))); [exact Hx|lia|].
  unfold scaled. rewrite E, base_pow_split by lia. ring.
Qed.
