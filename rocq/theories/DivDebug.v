(** * Debug builds: the guesses in a division by two significant units. *)
From Coq Require Import ZArith List Bool Lia QArith Qabs.
From Coq Require Import ZifyBool ZifyNat.
From Verif Require Import Rust Tables Model_Base Model_Cmp Model_Arith Spec Lib Cmp AddSub Sign Mul DivBasics Div Div2 Div3 Div4 Div5 Rem4 Rem7.
Import ListNotations.
Open Scope Z_scope.

Section two.
  Variables (m : build) (d0 d1 : Z).
  Hypothesis H0 : base <= 4 * d0.
  Hypothesis H0' : d0 < base.
  Hypothesis H1 : 0 <= d1 < base.
  Let D := d0 * base + d1.

  (** One step of the division. *)
  Lemma long_div_step k n buf i r : uok buf -> uok r -> Z.of_nat (S n) <= i + 1 -> i + 1 < zlen buf -> zlen buf <= 100 -> Z.of_nat (S n) <= zlen r ->
    zn buf (i + 1) * base + zn buf i < D -> (m = Debug -> zn buf (i + 1) * base + zn buf i < d0 * base) ->
    exists buf'' r1, long_div m (S n) (repeat 0 k ++ [d1; d0]) (Z.of_nat k + 1) d0 d1 buf i r = long_div m n (repeat 0 k ++ [d1; d0]) (Z.of_nat k + 1) d0 d1 buf'' (i - 1) r1 /\
      uok buf'' /\ zlen buf'' = zlen buf /\ uok r1 /\ zlen r1 = zlen r /\
      (1 <= i -> zn buf'' i * base + zn buf'' (i - 1) = ((zn buf (i + 1) * base + zn buf i) * base + zn buf (i - 1)) mod D /\
        forall t, tops buf'' (i - 2) t = tops buf (i - 2) t).
  Proof.
    assert (Hd : 0 < d0) by (unfold base in *; lia). assert (HD : 0 < D) by (unfold D, base in *; lia).
    intros U Ur Hn Li Lb Lr HR HG. assert (Hi : 0 <= i) by lia. cbn [long_div]. cbv zeta.
    rewrite (guess_ok m d0 d1 H0 H0' H1 buf i U Hi Li Lb HR HG). mret.
    set (R := zn buf (i + 1) * base + zn buf i) in *. fold D. set (u := R * base + dg buf (i - 1)).
    assert (BR : 0 <= R) by (pose proof (uok_zn buf (i + 1) U); pose proof (uok_zn buf i U); unfold R, base in *; lia).
    pose proof (dg_bound buf (i - 1) U) as Bx.
    assert (Bu : 0 <= u < D * base) by (unfold u; clear - BR Bx HR; unfold base in *; lia).
    assert (Bq : 0 <= u / D < base) by (split; [apply Z.div_pos; lia|apply Z.div_lt_upper_bound; lia]).
    pose proof (Z.div_mod u D ltac:(lia)) as DM. pose proof (Z.mod_pos_bound u D HD) as BM.
    destruct (mul_sub_two m d0 d1 H0 H0' H1 buf i k (u / D) U Hi Li Bq) as (buf' & c & b & s0 & E & Hc & T & W & S0 & ER & EL).
    { fold R. fold u. clear - DM BM. fold D. lia. }
    fold R in ER. fold u in ER. fold D in ER.
    replace (i - (Z.of_nat k + 1)) with (i - 1 - Z.of_nat k) by lia. rewrite E. mret.
    pose proof (wrote_zlen _ _ _ _ W) as L'. rewrite get_ok by lia. mret.
    assert (ET : zn buf' (i + 1) = zn buf (i + 1)) by (apply W; lia). rewrite ET.
    pose proof (uok_zn buf (i + 1) U) as B2. rewrite as_i32_id by (clear - Hc; unfold base in *; lia).
    rewrite i32_ok by (clear - B2 Hc; unfold base in *; lia). mret. rewrite T. rewrite i32_ok by lia. mret. change (0 =? -1) with false. cbv iota.
    rewrite set_ok by lia. mret. mret. rewrite as_i32_id by (clear - Bq; unfold base in *; lia). rewrite set_ok by lia. mret.
    set (q := u / D) in *. set (r1 := upd (Z.to_nat (Z.of_nat n)) q r).
    pose proof (wrote_upd r (Z.of_nat n) q Ur ltac:(lia) Bq) as W0. fold r1 in W0.
    pose proof (wrote_upd buf' (i + 1) 0 ltac:(apply W) ltac:(lia) ltac:(unfold base; lia)) as W1.
    set (buf'' := upd (Z.to_nat (i + 1)) 0 buf') in *.
    exists buf'', r1. split; [reflexivity|]. split; [apply W1|]. split; [unfold buf''; rewrite zlen_upd; exact L'|]. split; [apply W0|]. split; [unfold r1; apply zlen_upd|].
    intros I1. specialize (EL I1). split.
    - assert (F0 : zn buf'' i = zn buf' i) by (apply W1; lia). assert (F1 : zn buf'' (i - 1) = zn buf' (i - 1)) by (apply W1; lia).
      replace (zn buf (i - 1)) with (dg buf (i - 1)) by (unfold dg; replace (i - 1 <? 0) with false by lia; reflexivity). fold u.
      rewrite F0, F1, EL, ER. clear - DM. lia.
    - intros t. apply tops_ext. intros j J1 J2. unfold dg. destruct (Z.ltb_spec j 0); [reflexivity|].
      transitivity (zn buf' j); [apply W1; lia|apply W; lia].
  Qed.
End two.

Lemma tops_step l i t : 0 <= i -> tops l (i + 1) (t + 3) = ((zn l (i + 1) * base + zn l i) * base + dg l (i - 1)) * base ^ Z.of_nat t + tops l (i - 2) t.
Proof.
  intros Hi. replace (t + 3)%nat with (3 + t)%nat by lia. rewrite tops_app. cbn [tops].
  replace (i + 1 - 1) with i by lia. replace (i - 1 - 0) with (i - 1) by lia. 
  replace (dg l i) with (zn l i) by (unfold dg; replace (i <? 0) with false by lia; reflexivity).
  replace (dg l (i + 1)) with (zn l (i + 1)) by (unfold dg; replace (i + 1 <? 0) with false by lia; reflexivity).
  change (Z.of_nat 3) with 3. replace (i + 1 - 3) with (i - 2) by lia. change (base ^ Z.of_nat 2) with (base * base). change (base ^ Z.of_nat 1) with base. change (base ^ Z.of_nat 0) with 1. ring.
Qed.
Lemma tops_two l i t : 0 <= i -> tops l i (t + 2) = (zn l i * base + dg l (i - 1)) * base ^ Z.of_nat t + tops l (i - 2) t.
Proof.
  intros Hi. replace (t + 2)%nat with (2 + t)%nat by lia. rewrite tops_app. cbn [tops].
  replace (dg l i) with (zn l i) by (unfold dg; replace (i <? 0) with false by lia; reflexivity).
  change (Z.of_nat 2) with 2. change (base ^ Z.of_nat 1) with base. change (base ^ Z.of_nat 0) with 1. ring.
Qed.

Section debug.
  Variables (d0 d1 : Z).
  Hypothesis H0 : base <= 4 * d0.
  Hypothesis H0' : d0 < base.
  Hypothesis H1 : 0 <= d1 < base.
  Let D := d0 * base + d1.

  (** A debug build finishes exactly if every first guess is a unit. *)
  Lemma long_div_debug k n : forall buf i r, uok buf -> uok r -> Z.of_nat n <= i + 1 -> i + 1 < zlen buf -> zlen buf <= 100 -> Z.of_nat n <= zlen r ->
    zn buf (i + 1) * base + dg buf i < D ->
    ((exists o, long_div Debug n (repeat 0 k ++ [d1; d0]) (Z.of_nat k + 1) d0 d1 buf i r = Ret o) <->
     (forall s, (s < n)%nat -> tops buf (i + 1) (s + 2) mod D < d0 * base)).
  Proof.
    assert (Hd : 0 < d0) by (unfold base in *; lia). assert (HD : 0 < D) by (unfold D, base in *; lia).
    induction n as [|n IH]; intros buf i r U Ur Hn Li Lb Lr HR.
    - split; [intros _ s Hs; lia|]. intros _. exists r. reflexivity.
    - assert (Hi : 0 <= i) by lia. assert (EI : dg buf i = zn buf i) by (unfold dg; replace (i <? 0) with false by lia; reflexivity). rewrite EI in HR.
      assert (T0 : tops buf (i + 1) (0 + 2) mod D = zn buf (i + 1) * base + zn buf i).
      { rewrite tops_two by lia. replace (i + 1 - 1) with i by lia. rewrite EI. cbn [tops Z.of_nat]. rewrite Z.pow_0_r, Z.mul_1_r, Z.add_0_r. apply Z.mod_small.
        split; [|exact HR]. pose proof (uok_zn buf (i + 1) U). pose proof (uok_zn buf i U). unfold base in *. lia. }
      destruct (Z.lt_ge_cases (zn buf (i + 1) * base + zn buf i) (d0 * base)) as [G|G].
      2:{ split; [|intros X; specialize (X 0%nat ltac:(lia)); rewrite T0 in X; lia]. intros [o E]. exfalso. cbn [long_div] in E. cbv zeta in E.
        apply bind_inv in E. destruct E as (qh & E & _). unfold guess_qhat in E. rewrite as_usize_id in E by lia. rewrite usize_ok in E by lia. rewrite bind_Ret in E. cbv beta in E.
        rewrite get_ok in E by lia. rewrite bind_Ret in E. cbv beta in E. replace (i >=? 0) with true in E by lia. rewrite get_ok in E by lia. rewrite bind_Ret in E. cbv beta in E.
        pose proof (uok_zn buf (i + 1) U) as B0. pose proof (uok_zn buf i U) as B1. change UNIT with base in E.
        rewrite i64_ok in E by (clear - B0; unfold base in *; lia). rewrite bind_Ret in E. cbv beta in E.
        set (R := zn buf (i + 1) * base + zn buf i) in *. assert (BR : 0 <= R < base * base) by (unfold R; clear - B0 B1; unfold base in *; lia).
        rewrite i64_ok in E by (clear - BR; unfold base in *; lia). rewrite bind_Ret in E. cbv beta in E.
        rewrite i64_div_ok in E by (clear - BR Hd; unfold base in *; lia). rewrite bind_Ret in E. cbv beta in E.
        apply bind_inv in E. destruct E as (? & _ & E). apply bind_inv in E. destruct E as (? & _ & E). apply bind_inv in E. destruct E as (? & E & _).
        cbn in E. replace (R / d0 <? base) with false in E; [discriminate E|]. symmetry. apply Z.ltb_ge. apply Z.div_le_lower_bound; [exact Hd|lia]. }
      destruct (long_div_step Debug d0 d1 H0 H0' H1 k n buf i r U Ur Hn Li Lb Lr HR (fun _ => G)) as (buf'' & r1 & E & U2 & L2 & Ur2 & Lr2 & X). rewrite E.
      destruct n as [|n].
      { split; [|intros _; exists r1; reflexivity]. intros _ s Hs. assert (s = 0%nat) as -> by lia. rewrite T0. exact G. }
      assert (I1 : 1 <= i) by lia. destruct (X I1) as [X1 X2]. fold D in X1.
      assert (DG : forall l, dg l (i - 1) = zn l (i - 1)) by (intros l; unfold dg; replace (i - 1 <? 0) with false by lia; reflexivity).
      assert (TS : forall s, tops buf'' i (s + 2) mod D = tops buf (i + 1) (S s + 2) mod D).
      { intros s. replace (S s + 2)%nat with (s + 3)%nat by lia. rewrite tops_step, tops_two by lia. rewrite !DG, X1, X2.
        set (u := (zn buf (i + 1) * base + zn buf i) * base + zn buf (i - 1)). set (t := tops buf (i - 2) s). set (P := base ^ Z.of_nat s).
        rewrite Z.add_mod, Z.mul_mod_idemp_l, <- Z.add_mod by lia. reflexivity. }
      specialize (IH buf'' (i - 1) r1 U2 Ur2 ltac:(lia) ltac:(lia) ltac:(lia) ltac:(lia)). replace (i - 1 + 1) with i in IH by lia.
      rewrite IH by (rewrite DG, X1; apply Z.mod_pos_bound; exact HD).
      split.
      + intros Y [|s] Hs; [rewrite T0; exact G|]. rewrite <- TS. apply Y. lia.
      + intros Y s Hs. rewrite TS. apply Y. lia.
  Qed.
End debug.
Ltac Zify.zify_post_hook ::= Z.div_mod_to_equations.

(** What the long division starts with. *)
Lemma body_setup m a b lnz rnz F U ig : wf a -> wf b -> lead2 a b lnz rnz -> 1 <= rnz -> significant_units 2 b ->
  0 <= F <= 4 -> let n := F + qk a b lnz rnz + b2z (qge a b lnz rnz) in n <= U -> 0 <= U <= 9 ->
  U + lnz + 1 < 18 \/ qge a b lnz rnz = false ->
  let i := U + lnz + b2z (qge a b lnz rnz) - 1 in
  exists nf d0 d1 buf1, nf = base / (zn (fd_lsu b) rnz + 1) /\ base <= 4 * d0 /\ d0 < base /\ 0 <= d1 < base /\
    (d0 * base + d1) * base ^ (rnz - 1) = nf * magnitude b /\ uok buf1 /\ zlen buf1 = 18 /\ 0 <= i + 1 /\ i + 1 < 18 /\
    sg buf1 0 (i + 2) = nf * magnitude a * base ^ U /\ zn buf1 (i + 1) * base + dg buf1 i < d0 * base + d1 /\
    div_body m (fd_lsu a) (fd_lsu b) zero_units lnz rnz (qge a b lnz rnz) U F ig n =
      (r <- long_div m (Z.to_nat n) (repeat 0 (Z.to_nat (rnz - 1)) ++ [d1; d0]) (Z.of_nat (Z.to_nat (rnz - 1)) + 1) d0 d1 buf1 i zero_units ;;
       Ret (Ok tt, mkfd (as_i8 ig) (9 * F) r)).
Proof.
  intros Ha Hb L R0 S2 HF n HnU HU Room i0. pose proof (wf_counts a Ha) as CA. pose proof (wf_counts b Hb) as CB.
  pose proof (wf_zlen a Ha) as LA. pose proof (wf_zlen b Hb) as LB. pose proof (wf_uok a Ha) as Ua. pose proof (wf_uok b Hb) as Ub.
  pose proof (quotient_lt a b lnz rnz L) as QL.
  pose proof (l2_am a b lnz rnz L) as EA. pose proof (l2_bm a b lnz rnz L) as EB. pose proof (l2_ap a b lnz rnz L) as PA. pose proof (l2_bp a b lnz rnz L) as PB.
  pose proof (l2_a0 a b lnz rnz L) as A0. pose proof (l2_b0 a b lnz rnz L) as B0. pose proof (l2_bt a b lnz rnz L) as TB. pose proof (l2_at a b lnz rnz L) as TA.
  set (g := qge a b lnz rnz) in *.
  set (y := zn (fd_lsu b) rnz) in *. pose proof (nf_facts y PB) as NF. cbv zeta in NF. destruct NF as (N1 & N2 & N3).
  unfold div_body. replace (rnz =? 0) with false by lia. cbv zeta. fold y.
  rewrite i64_ok by (clear - PB; unfold base in *; lia). mret. change UNIT with base. rewrite i64_div_ok by (clear - PB; unfold base in *; lia). mret.
  remember (base / (y + 1)) as nf eqn:ENF.
  set (la := firstn (Z.to_nat (lnz + 1)) (fd_lsu a)). set (lb := firstn (Z.to_nat (rnz + 1)) (fd_lsu b)).
  assert (Ela : sg la 0 (lnz + 1) = magnitude a) by (unfold la; rewrite sg_firstn by lia; symmetry; exact EA).
  assert (Elb : sg lb 0 (rnz + 1) = magnitude b) by (unfold lb; rewrite sg_firstn by lia; symmetry; exact EB).
  set (A := magnitude a) in *. set (B := magnitude b) in *.
  pose proof (pow_base_pos lnz ltac:(lia)) as Pl. pose proof (pow_base_pos rnz ltac:(lia)) as Pr.
  assert (HnB : nf * B < base ^ (rnz + 1)).
  { rewrite base_S by lia. clear - TB N1 N2 Pr. set (P := base ^ rnz) in *. clearbody P B.
    apply Z.lt_le_trans with (nf * (P * (y + 1))); [apply Z.mul_lt_mono_pos_l; lia|]. replace (nf * (P * (y + 1))) with (nf * (y + 1) * P) by ring.
    apply Z.mul_le_mono_nonneg_r; lia. }
  assert (HnA : g = false -> nf * A < base ^ (lnz + 1)).
  { intros G. rewrite G in QL. cbn [b2z] in QL. rewrite Z.add_0_r in QL. rewrite base_S in * by lia.
    apply (Z.mul_lt_mono_pos_r (base ^ rnz)); [exact Pr|]. clear - QL HnB N1 Pl Pr. set (P := base ^ rnz) in *. set (T := base ^ lnz) in *. clearbody P T A B.
    apply Z.lt_trans with (nf * (B * T)); [replace (nf * A * P) with (nf * (A * P)) by ring; apply Z.mul_lt_mono_pos_l; lia|].
    replace (nf * (B * T)) with (nf * B * T) by ring. replace (base * T * P) with (base * P * T) by ring. apply Z.mul_lt_mono_pos_r; lia. }
  assert (Ula : uok la) by (apply Forall_firstn, Ua). assert (Ulb : uok lb) by (apply Forall_firstn, Ub).
  assert (Lla : zlen la = lnz + 1) by (unfold la; rewrite zlen_firstn; clear - A0 LA CA; lia).
  assert (Llb : zlen lb = rnz + 1) by (unfold lb; rewrite zlen_firstn; clear - B0 LB CB; lia).
  assert (Rm : U + lnz + 1 < 18 \/ nf * sg la 0 (lnz + 1) < base ^ (lnz + 1)).
  { rewrite Ela. destruct Room as [?|G]; [left; assumption|right; auto]. }
  assert (Rb : nf * sg lb 0 (rnz + 1) < base ^ (rnz + 1)) by (rewrite Elb; exact HnB).
  destruct (norm_bufs_ok m nf la lb U lnz rnz Ula Ulb N1 HU ltac:(clear - A0 CA; lia) ltac:(clear - B0 CB; lia) Lla Llb Rb Rm)
    as (buf1 & buf2 & E & U1 & L1 & E1 & U2 & L2 & E2).
  clear Rm Rb Lla Llb Ula Ulb.
  rewrite E. mret. rewrite Ela in E1. rewrite Elb in E2. clear E Ela Elb la lb.
  rewrite !get_ok by (clear - B0 CB L2 R0; lia). mret. mret.
  (* the divisor *)
  assert (Blo : base ^ rnz <= nf * B).
  { clear - TB PB N1 Pr. set (P := base ^ rnz) in *. clearbody P B. assert (P <= B) by nia. assert (B <= nf * B) by nia. lia. }
  destruct S2 as (x & k & Hx & Hk & EX). fold B in EX.
  assert (Blo' : base ^ rnz <= B) by (clear - TB PB Pr; set (P := base ^ rnz) in *; clearbody P B; nia).
  pose proof (lead_exp x k 2 rnz B Hx Hk ltac:(lia) ltac:(lia) EX Blo') as Hk1.
  assert (Hr8 : 1 <= rnz <= 8) by (clear - R0 B0 CB; lia).
  assert (DU : forall x k, 0 < x -> B = x * base ^ k -> 0 <= k -> rnz - 1 <= k -> _) by
    (intros x0 k0 X1 X2 X3 X4; exact (divisor_units buf2 rnz (nf * B) (nf * x0) k0 U2 L2 Hr8 E2 Blo
      ltac:(rewrite X2; ring) ltac:(apply Z.mul_pos_pos; clear - X1 N1; lia) X3 X4)).
  destruct (DU x k (proj1 Hx) EX Hk ltac:(clear - Hk1; lia)) as (V1 & V2 & _).
  rewrite V1. set (d0 := zn buf2 rnz) in *. set (d1 := zn buf2 (rnz - 1)) in *. set (D := d0 * base + d1) in *.
  pose proof (uok_zn buf2 rnz U2) as Bd0. pose proof (uok_zn buf2 (rnz - 1) U2) as Bd1. fold d0 in Bd0. fold d1 in Bd1.
  pose proof (pow_base_pos (rnz - 1) ltac:(clear - R0; lia)) as Pr1.
  assert (EP : base ^ rnz = base * base ^ (rnz - 1)) by (rewrite <- base_S by (clear - R0; lia); f_equal; clear; lia).
  assert (Hd0 : base <= 4 * d0).
  { assert (nf * y < d0 + 1); [|clear - H N3 Bd0; lia]. assert (X : nf * (base ^ rnz * y) < (d0 + 1) * base ^ rnz).
    { apply Z.le_lt_trans with (nf * B); [apply Z.mul_le_mono_nonneg_l; [clear - N1; lia|apply TB]|]. rewrite <- V2, EP. unfold D.
      replace ((d0 + 1) * (base * base ^ (rnz - 1))) with ((d0 + 1) * base * base ^ (rnz - 1)) by ring. apply Z.mul_lt_mono_pos_r; [exact Pr1|]. clear - Bd1. lia. }
    replace (nf * (base ^ rnz * y)) with (nf * y * base ^ rnz) in X by ring. apply Z.mul_lt_mono_pos_r in X; assumption. }
  (* the dividend *)
  assert (HD : 0 < D) by (unfold D; clear - Hd0 Bd1; unfold base in *; lia).
  set (i := U + lnz + (if g then 0 else -1)).
  assert (Gi : i = U + lnz + b2z g - 1) by (unfold i, b2z; clear; destruct g; lia). assert (Hg : 0 <= b2z g <= 1) by (clear; destruct g; cbn; lia). clearbody i.
  assert (Hi : i + 1 < 18) by (rewrite Gi; destruct Room as [Q|Q]; [|rewrite Q; cbn [b2z]]; clear - Q Hg HU A0 CA; lia).
  assert (Hi0 : 0 <= i + 1) by (clear - Gi Hg HU A0; lia). assert (Hlg : 0 <= lnz + b2z g) by (clear - Hg A0; lia).
  assert (QR : nf * A * base ^ U * base < D * base ^ (i + 1)).
  { apply (Z.mul_lt_mono_pos_r (base ^ (rnz - 1))); [exact Pr1|].
    replace (nf * A * base ^ U * base * base ^ (rnz - 1)) with (nf * (A * base ^ rnz) * base ^ U) by (rewrite EP; ring).
    replace (D * base ^ (i + 1) * base ^ (rnz - 1)) with (nf * (B * base ^ (lnz + b2z g)) * base ^ U).
    - apply Z.mul_lt_mono_pos_r; [apply pow_base_pos; clear - HU; lia|]. apply Z.mul_lt_mono_pos_l; [clear - N1; lia|exact QL].
    - replace (D * base ^ (i + 1) * base ^ (rnz - 1)) with (nf * B * base ^ (i + 1)) by (rewrite <- V2; ring).
      replace (i + 1) with (lnz + b2z g + U) by (clear - Gi; lia). rewrite (base_pow_split (lnz + b2z g)) by (clear - Hlg HU; lia). ring. }
  assert (ES : sg buf1 0 (i + 2) = nf * A * base ^ U).
  { rewrite (sg_top buf1 (i + 2) 18 U1 ltac:(clear - Hi Hi0; lia)); rewrite E1; [ring|]. replace (base ^ U * (nf * A)) with (nf * A * base ^ U) by ring.
    apply (Z.mul_lt_mono_pos_r base); [reflexivity|]. apply Z.lt_trans with (D * base ^ (i + 1)); [exact QR|].
    replace (i + 2) with (i + 1 + 1) by (clear; lia). rewrite (base_S (i + 1)) by exact Hi0. pose proof (pow_base_pos (i + 1) Hi0).
    replace (base * base ^ (i + 1) * base) with (base * base * base ^ (i + 1)) by ring. apply Z.mul_lt_mono_pos_r; [assumption|]. unfold D. clear - Bd0 Bd1. unfold base in *. lia. }
  assert (HR : zn buf1 (i + 1) * base + dg buf1 i < D).
  { pose proof (tops_sfl buf1 (i + 1) 2 U1 ltac:(clear - Hi0; lia)) as T. cbn [tops] in T. replace (i + 1 - 1) with i in T by (clear; lia).
    change (base ^ Z.of_nat 1) with base in T. change (base ^ Z.of_nat 0) with 1 in T.
    replace (dg buf1 (i + 1)) with (zn buf1 (i + 1)) in T by (unfold dg; replace (i + 1 <? 0) with false by (clear - Hi0; lia); reflexivity).
    replace (zn buf1 (i + 1) * base + dg buf1 i) with (zn buf1 (i + 1) * base + (dg buf1 i * 1 + 0)) by ring. rewrite T.
    replace (i + 1 + 1) with (i + 2) by (clear; lia). rewrite ES. unfold sfl. change (Z.of_nat 2) with 2.
    apply Z.div_lt_upper_bound; [apply pow_base_pos; clear; lia|].
    destruct (Z.le_gt_cases 0 i) as [I|I].
    - replace (Z.max 0 (2 - (i + 1) - 1)) with 0 by (clear - I; lia). replace (Z.max 0 (- (2 - (i + 1) - 1))) with i by (clear - I; lia). rewrite Z.pow_0_r, Z.mul_1_r.
      apply (Z.mul_lt_mono_pos_r base); [reflexivity|]. replace (base ^ i * D * base) with (D * (base * base ^ i)) by ring. rewrite <- base_S by exact I. exact QR.
    - assert (Im : i = -1) by (clear - I Hi0; lia). clear ES Gi Hi Hi0 T. subst i. change (Z.max 0 (2 - (-1 + 1) - 1)) with 1. change (Z.max 0 (- (2 - (-1 + 1) - 1))) with 0. change (-1 + 1) with 0 in QR. 
      rewrite Z.pow_0_r in *. rewrite Z.pow_1_r. rewrite Z.mul_1_l. rewrite Z.mul_1_r in QR. exact QR. }
  assert (EI : i0 = i) by (rewrite Gi; reflexivity). exists nf, d0, d1, buf1. rewrite EI.
  split; [reflexivity|]. split; [exact Hd0|]. split; [exact (proj2 Bd0)|]. split; [exact Bd1|]. split; [exact V2|]. split; [exact U1|]. split; [exact L1|]. split; [exact Hi0|]. split; [exact Hi|]. split; [exact ES|]. split; [exact HR|].
  replace (Z.of_nat (Z.to_nat (rnz - 1)) + 1) with rnz by (clear - R0; lia).
  replace (as_i8 (F * DIGITS_PER_UNIT)) with (9 * F) by (change DIGITS_PER_UNIT with 9; rewrite as_i8_id by (clear - HF; lia); lia). reflexivity.
Qed.
Ltac Zify.zify_post_hook ::= idtac.

Lemma mod_div_swap x D P : 0 < D -> 0 < P -> (x mod (D * P)) / P = (x / P) mod D.
Proof.
  intros HD HP. rewrite (Z.mul_comm D P), Z.rem_mul_r by lia. rewrite Z.add_comm, (Z.mul_comm P), Z.div_add_l by lia.
  rewrite (Z.div_small (x mod P)) by (apply Z.mod_pos_bound, HP). lia.
Qed.
Lemma guard_first X Y len j d0 d1 : 2 <= len -> 0 < Y -> 0 <= j -> 0 < norm_factor Y len -> 0 < d0 -> 0 <= d1 < base ->
  (d0 * base + d1) * base ^ (len - 2) = norm_factor Y len * Y ->
  (first_guess X Y len j < base <-> (norm_factor Y len * X / base ^ (j + len - 1)) mod (d0 * base + d1) < d0 * base).
Proof.
  intros Hl HY Hj Hf Hd Hd1 E. unfold first_guess. cbv zeta. set (f := norm_factor Y len) in *. clearbody f. pose proof (pow_base_pos (len - 2) ltac:(lia)) as P2.
  assert (E0 : f * Y / base ^ (len - 1) = d0).
  { rewrite <- E. replace (len - 1) with ((len - 2) + 1) by lia. rewrite (base_pow_split _ 1), Z.pow_1_r by lia. rewrite (Z.mul_comm (base ^ (len - 2)) base), Z.div_mul_cancel_r by (unfold base in *; lia).
    rewrite Z.div_add_l by (unfold base; lia). rewrite Z.div_small by exact Hd1. lia. }
  rewrite E0. assert (ER : f * rest X Y j / base ^ (j + len - 1) = (f * X / base ^ (j + len - 1)) mod (d0 * base + d1)).
  { unfold rest. pose proof (pow_base_pos (j + 1) ltac:(lia)). rewrite <- Z.mul_mod_distr_l by (try lia; apply Z.neq_mul_0; lia). 
    replace (f * (Y * base ^ (j + 1))) with ((d0 * base + d1) * base ^ (j + len - 1)).
    - apply mod_div_swap; [unfold base in *; lia|apply pow_base_pos; lia].
    - replace (j + len - 1) with ((len - 2) + (j + 1)) by lia. rewrite (base_pow_split (len - 2)) by lia. rewrite Z.mul_assoc, E. ring. }
  rewrite ER. set (n := (f * X / base ^ (j + len - 1)) mod (d0 * base + d1)). clearbody n. split; intros H.
  - destruct (Z.lt_ge_cases n (d0 * base)) as [|G]; [assumption|]. assert (base <= n / d0) by (apply Z.div_le_lower_bound; lia). lia.
  - apply Z.div_lt_upper_bound; lia.
Qed.

Lemma unit_exists A B fa fb F lnz rnz g n j : 0 < B -> 0 <= fa -> 0 <= fb -> 0 <= F -> 0 <= lnz -> 0 <= rnz -> 0 <= g -> n = F + (lnz - fa) - (rnz - fb) + g ->
  A * base ^ rnz < B * base ^ (lnz + g) -> B * base ^ (lnz + g) <= A * base ^ (rnz + 1) -> 0 <= j -> (B * base ^ fa * base ^ j <= A * base ^ (F + fb) <-> j < n).
Proof.
  intros BP Hfa Hfb HF Hl Hr Hg Hn QL QG Hj. pose proof (pow_base_pos (F + fb) ltac:(lia)) as PF. split; intros H.
  - destruct (Z.lt_ge_cases j n) as [|C]; [assumption|exfalso]. apply (Z.mul_le_mono_nonneg_r _ _ (base ^ rnz)) in H; [|apply Z.pow_nonneg; discriminate].
    assert (H2 : B * base ^ (F + fb + lnz + g) <= B * base ^ fa * base ^ j * base ^ rnz).
    { clear QL QG H PF. rewrite <- !Z.mul_assoc, <- !base_pow_split by lia. apply Z.mul_le_mono_nonneg_l; [clear - BP; lia|]. apply Z.pow_le_mono_r; [reflexivity|lia]. }
    replace (F + fb + lnz + g) with ((lnz + g) + (F + fb)) in H2 by ring. rewrite base_pow_split in H2 by (clear - Hl Hg HF Hfb; lia).
    assert (H3 : A * base ^ rnz * base ^ (F + fb) < B * base ^ (lnz + g) * base ^ (F + fb)) by (apply Z.mul_lt_mono_pos_r; assumption).
    replace (A * base ^ (F + fb) * base ^ rnz) with (A * base ^ rnz * base ^ (F + fb)) in H by ring. rewrite Z.mul_assoc in H2. clear - H H2 H3.
    exact (Z.lt_irrefl _ (Z.lt_le_trans _ _ _ H3 (Z.le_trans _ _ _ H2 H))).
  - apply (Z.mul_le_mono_pos_r _ _ (base ^ (rnz + 1))); [apply pow_base_pos; lia|].
    apply Z.le_trans with (B * base ^ (F + fb + lnz + g)).
    + rewrite <- !Z.mul_assoc, <- !base_pow_split by lia. apply Z.mul_le_mono_nonneg_l; [clear - BP; lia|]. apply Z.pow_le_mono_r; [reflexivity|clear QL QG PF; lia].
    + replace (F + fb + lnz + g) with ((lnz + g) + (F + fb)) by ring. rewrite base_pow_split by lia. rewrite Z.mul_assoc. replace (A * base ^ (F + fb) * base ^ (rnz + 1)) with (A * base ^ (rnz + 1) * base ^ (F + fb)) by ring.
      apply Z.mul_le_mono_nonneg_r; [apply Z.lt_le_incl, PF|exact QG].
Qed.
(** The long division by two units, in a debug build. *)
Lemma body_debug_iff a b lnz rnz F U ig : wf a -> wf b -> lead2 a b lnz rnz -> 1 <= rnz -> significant_units 2 b ->
  0 <= F <= 4 -> let n := F + qk a b lnz rnz + b2z (qge a b lnz rnz) in n <= U -> 0 <= U <= 9 ->
  U + lnz + 1 < 18 \/ qge a b lnz rnz = false ->
  ((exists o, div_body Debug (fd_lsu a) (fd_lsu b) zero_units lnz rnz (qge a b lnz rnz) U F ig n = Ret o) <->
   guesses_small (magnitude a * base ^ (F + fu b)) (magnitude b * base ^ fu a)).
Proof.
  intros Ha Hb L R1 S2 HF n HnU HU Room. pose proof (wf_counts a Ha) as CA. pose proof (wf_counts b Hb) as CB.
  destruct (body_setup Debug a b lnz rnz F U ig Ha Hb L R1 S2 HF HnU HU Room) as (nf & d0 & d1 & buf1 & ENF & Hd0 & Hd0' & Hd1 & ED & U1 & L1 & I0 & I1 & ES & HR & EB).
  fold n in EB. rewrite EB. clear EB. pose proof (quotient_lt a b lnz rnz L) as QL. pose proof (quotient_ge a b lnz rnz L) as QG.
  pose proof (l2_a0 a b lnz rnz L) as A0. pose proof (l2_b0 a b lnz rnz L) as B0. pose proof (l2_bt a b lnz rnz L) as TB. pose proof (l2_bp a b lnz rnz L) as PB.
  pose proof (b2z_range (qge a b lnz rnz)) as Bg. set (g := b2z (qge a b lnz rnz)) in *. clearbody g. set (i := U + lnz + g - 1) in *. set (y := zn (fd_lsu b) rnz) in *.
  pose proof (nf_facts y PB) as NF. cbv zeta in NF. rewrite <- ENF in NF. destruct NF as (N1 & N2 & N3).
  set (A := magnitude a) in *. set (B := magnitude b) in *. pose proof (pow_base_pos rnz ltac:(lia)) as Pr.
  assert (BP : 0 < B) by (clear - TB PB Pr; set (P := base ^ rnz) in *; clearbody P; nia).
  assert (Hn : n = F + (lnz - fu a) - (rnz - fu b) + g) by (unfold n, qk; lia). clearbody n.
  set (fa := fu a) in *. set (fb := fu b) in *. assert (Hfa : 0 <= fa) by lia. assert (Hfb : 0 <= fb) by lia. clearbody fa fb.
  pose proof (long_div_debug d0 d1 Hd0 Hd0' Hd1 (Z.to_nat (rnz - 1)) (Z.to_nat n) buf1 i zero_units U1 (uok_repeat0 9)) as LD.
  rewrite L1 in LD. specialize (LD ltac:(unfold i; clear - HnU HU A0 Bg; lia) I1 ltac:(clear; lia) ltac:(rewrite zlen_zero_units; clear - HnU HU; lia) HR).
  assert (EX : (exists o, (r <- long_div Debug (Z.to_nat n) (repeat 0 (Z.to_nat (rnz - 1)) ++ [d1; d0]) (Z.of_nat (Z.to_nat (rnz - 1)) + 1) d0 d1 buf1 i zero_units;; Ret (Ok tt, mkfd (as_i8 ig) (9 * F) r)) = Ret o) <->
    (exists o, long_div Debug (Z.to_nat n) (repeat 0 (Z.to_nat (rnz - 1)) ++ [d1; d0]) (Z.of_nat (Z.to_nat (rnz - 1)) + 1) d0 d1 buf1 i zero_units = Ret o)).
  { split; intros [o E]; [apply bind_inv in E; destruct E as (x & E & _); eauto|]. rewrite E. mret. eauto. }
  rewrite EX, LD. clear EX LD.
  set (X := A * base ^ (F + fb)). set (Y := B * base ^ fa). set (len := rnz + 1 + fa).
  pose proof (pow_base_pos fa Hfa) as Pf.
  assert (BY : base ^ (len - 1) <= Y < base ^ len).
  { unfold len, Y. clear - TB PB Pr Pf Hfa R1. replace (rnz + 1 + fa - 1) with (rnz + fa) by ring. rewrite (base_pow_split rnz), (base_pow_split (rnz + 1)), base_S by lia. split; [apply Z.mul_le_mono_nonneg_r; [lia|]|apply Z.mul_lt_mono_pos_r; [exact Pf|]].
    - clear - TB PB Pr. set (P := base ^ rnz) in *. clearbody P. nia.
    - apply Z.lt_le_trans with (1 := proj2 TB). rewrite (Z.mul_comm base). apply Z.mul_le_mono_nonneg_l; [clear - Pr; lia|clear - PB; lia]. }
  assert (NY : norm_factor Y len = nf).
  { unfold norm_factor. rewrite ENF. f_equal. f_equal. unfold Y, len. clear - TB Pf Hfa R1 Pr. replace (rnz + 1 + fa - 1) with (rnz + fa) by ring. rewrite (base_pow_split rnz) by lia. rewrite Z.div_mul_cancel_r by lia.
    symmetry. apply Z.div_unique with (B - base ^ rnz * y); [|ring]. left. revert TB. clear. rewrite Z.mul_add_distr_l. set (P := base ^ rnz). clearbody P. lia. }
  assert (EY : (d0 * base + d1) * base ^ (len - 2) = norm_factor Y len * Y).
  { rewrite NY. unfold Y, len. clear - ED R1 Hfa. replace (rnz + 1 + fa - 2) with (rnz - 1 + fa) by ring. rewrite (base_pow_split (rnz - 1)) by lia. rewrite Z.mul_assoc, ED. ring. }
  assert (YP : 0 < Y) by (unfold Y; apply Z.mul_pos_pos; assumption).
  assert (LE : forall j, 0 <= j -> (Y * base ^ j <= X <-> j < n)) by (intros j Hj; apply (unit_exists A B fa fb F lnz rnz g n); try assumption; clear - HF A0 R1 Bg; lia).
  assert (TT : forall s, (s < Z.to_nat n)%nat -> tops buf1 (i + 1) (s + 2) = nf * X / base ^ (n - 1 - Z.of_nat s + len - 1)).
  { intros s Hs. rewrite tops_sfl by (exact U1 || (clear - I0; lia)). replace (i + 1 + 1) with (i + 2) by ring. rewrite ES. unfold sfl. unfold X, len, i in *. clear - HnU HU A0 Bg Hs R1 Hfa Hfb HF Hn.
    replace (Z.max 0 (Z.of_nat (s + 2) - (U + lnz + g - 1 + 1) - 1)) with 0 by lia. rewrite Z.pow_0_r, Z.mul_1_r. replace (Z.max 0 (- (Z.of_nat (s + 2) - (U + lnz + g - 1 + 1) - 1))) with (U + lnz + g - 1 - Z.of_nat s) by lia.
    rewrite <- (Z.mul_1_l (base ^ (U + lnz + g - 1 - Z.of_nat s))), <- (Z.mul_1_l (base ^ (n - 1 - _ + _ - 1))). rewrite Z.mul_assoc. apply scale_eq; lia. }
  assert (GF := fun j => guard_first X Y len j d0 d1). rewrite NY in GF. assert (L2 : 2 <= len) by (unfold len; clear - R1 Hfa; lia). assert (NP : 0 < nf) by (clear - N1; lia). assert (DP : 0 < d0) by (clear - Hd0; unfold base in *; lia).
  rewrite NY in EY. clearbody X Y len i. clear - GF L2 NP DP YP Hd1 EY LE TT BY.
  split.
  - intros G l j Hl By Hj Hle. assert (l = len) as -> by (apply (len_unique Y); try assumption; clear - L2 Hl; lia). apply LE in Hle; [|exact Hj].
    apply GF; try assumption. specialize (G (Z.to_nat (n - 1 - j)) ltac:(clear - Hle Hj; lia)). rewrite TT in G by (clear - Hle Hj; lia). replace (n - 1 - Z.of_nat (Z.to_nat (n - 1 - j)) + len - 1) with (j + len - 1) in G by (clear - Hle Hj; lia). exact G.
  - intros G s Hs. rewrite TT by exact Hs. assert (Hj : 0 <= n - 1 - Z.of_nat s) by (clear - Hs; lia). apply GF; try assumption. apply G; try assumption. apply LE; [exact Hj|clear; lia].
Qed.

(** A debug build returns a quotient exactly if it fits and, unless it overflows, its guesses are units. *)
Lemma div_abs_debug a b res incr : wf a -> wf b -> magnitude a <> 0 -> magnitude b <> 0 -> significant_units 2 b -> 0 <= incr -> sane_request a b incr ->
  exists lnz rnz, lead2 a b lnz rnz /\
    ((exists o, div_abs Debug a b res incr = Ret o) <-> room a b incr lnz rnz /\ buffer_room a b incr lnz rnz /\
      (exp_of a b lnz rnz <= 9 -> guesses_small (magnitude a * base ^ (qfu a b incr lnz rnz + fu b)) (magnitude b * base ^ fu a))).
Proof.
  intros Ha Hb Na Nb S2 Hi Sn. destruct (div_plan Debug a b res incr Ha Hb Na Nb Hi Sn) as (lnz & rnz & L & E & Rm).
  exists lnz, rnz. split; [exact L|]. 
  pose proof (l2_a0 a b lnz rnz L) as A0. pose proof (l2_b0 a b lnz rnz L) as B0. pose proof (wf_counts a Ha) as CA. pose proof (wf_counts b Hb) as CB.
  assert (HG : 0 <= Z.max (fu a + fu b) (units_for (frac_digits a + frac_digits b + incr))) by (clear - CA CB; lia).
  assert (HF : qfu a b incr lnz rnz = Z.min 4 (Z.min (9 - Z.max 0 (exp_of a b lnz rnz)) (Z.max (fu a + fu b) (units_for (frac_digits a + frac_digits b + incr))))) by reflexivity.
  assert (Rm' : forall o, div_abs Debug a b res incr = Ret o -> room a b incr lnz rnz /\ div_abs Debug a b res incr = Ret o) by (intros o H; split; [apply (Rm o H)|exact H]). clear Rm.
  revert Rm'. generalize dependent (div_abs Debug a b res incr). intros da E Rm. fold (exp_of a b lnz rnz) in E. unfold buffer_room.
  assert (EQI : qiu a b lnz rnz = Z.max 0 (exp_of a b lnz rnz)) by reflexivity. rewrite EQI in E. clear EQI.
  set (F := qfu a b incr lnz rnz) in *. clearbody F.
  assert (HK : F + qk a b lnz rnz + b2z (qge a b lnz rnz) = F + exp_of a b lnz rnz) by (unfold exp_of; clear; lia).
  destruct (Z.ltb_spec 9 (exp_of a b lnz rnz)) as [O|O].
  { split; [intros [o H]; split; [apply (Rm o H)|split; [left; exact O|intros X; exfalso; clear - X O; lia]]|]. intros (R & _). rewrite (E R). eauto. }
  assert (BF : 0 <= F <= 4) by (clear - HF HG O; lia). assert (BU : Z.max 0 (exp_of a b lnz rnz) + F <= 9) by (clear - HF HG O; lia).
  destruct (Z.eq_dec rnz 0) as [R0|R0].
  - assert (GS : guesses_small (magnitude a * base ^ (F + fu b)) (magnitude b * base ^ fu a)).
    { apply (one_unit_small _ _ (magnitude b) (fu a)); [|clear - CA; lia|reflexivity]. pose proof (l2_bt a b lnz rnz L) as TB. pose proof (l2_bp a b lnz rnz L) as PB. subst rnz. rewrite Z.pow_0_r in TB. clear - TB PB. lia. }
    split; [intros [o H]; split; [apply (Rm o H)|split; [right; left; exact R0|auto]]|]. intros (R & _). rewrite (E R).
    destruct (body_short Debug a b lnz rnz F (Z.max 0 (exp_of a b lnz rnz) + F) (qig a b lnz rnz) Ha Hb L R0 BF) as (r & E' & _); [rewrite HK; clear - BU; lia|]. rewrite E'. eauto.
  - assert (R1 : 1 <= rnz) by (clear - R0 B0; lia).
    pose proof (body_debug_iff a b lnz rnz F (Z.max 0 (exp_of a b lnz rnz) + F) (qig a b lnz rnz) Ha Hb L R1 S2 BF) as BD. cbv zeta in BD. rewrite HK in *.
    specialize (BD ltac:(clear - BU; lia) ltac:(clear - BU BF; lia)). split.
    + intros [o H]. destruct (Rm o H) as [R _]. rewrite (E R) in H.
      assert (Room : Z.max 0 (exp_of a b lnz rnz) + F + lnz + 1 < 18 \/ qge a b lnz rnz = false).
      { destruct (Z.lt_ge_cases (Z.max 0 (exp_of a b lnz rnz) + F + lnz + 1) 18) as [?|X]; [auto|right].
        destruct (qge a b lnz rnz) eqn:G; [exfalso|reflexivity].
        refine (body_no_room Debug _ _ _ lnz rnz _ _ _ _ o R1 _ _ H); clear - X A0 CA BU BF; lia. }
      split; [exact R|]. split; [right; right; exact Room|]. intros _. apply (BD Room). eauto.
    + intros (R & [B|[B|B]] & G); [exfalso; clear - B O; lia|contradiction|]. rewrite (E R). apply (BD B), G, O.
Qed.
