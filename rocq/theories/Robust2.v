(** * Division whatever the guesses of the quotient units are. *)
From Coq Require Import ZArith List Bool Lia QArith Qabs.
From Coq Require Import ZifyBool ZifyNat.
From Verif Require Import Rust Tables Model_Base Model_Cmp Model_Arith Spec Lib Cmp AddSub Sign Witness Basics MulAbs Mul DivBasics Div Div2 Div3 Div4 Div5 DivQ Rem Rem2 Rem3 Agree Term Robust.
Import ListNotations.
Open Scope Z_scope.
Ltac Zify.zify_post_hook ::= Z.div_mod_to_equations.

(** The quotient before its sign is set: a digit count, and units that may be
    wrong, but are not negative. *)
Definition loose (m : build) (F ig n : Z) (r : list Z) : Prop := ubelow (qb m) r /\ zlen r = 9 /\ forall k, Z.max 0 n <= k -> zn r k = 0.

Lemma ubelow_uok m l : uok l -> ubelow (qb m) l.
Proof. intros U. eapply Forall_impl; [|exact U]. cbv beta. intros x Hx. split; [apply Hx|eapply Z.lt_le_trans; [apply Hx|apply qb_le]]. Qed.

Lemma body_no_room_fuel m a b r0 lnz rnz U F ig n : 1 <= rnz -> U + lnz + 1 = 18 -> 0 < n -> nofuel (div_body m a b r0 lnz rnz true U F ig n).
Proof.
  intros R E N. unfold div_body. replace (rnz =? 0) with false by lia. cbv zeta.
  apply nofuel_bind; [apply nofuel_chk|intros t _]. apply nofuel_bind; [unfold i64_div; nfs|intros nf _]. apply nofuel_bind; [dn norm_bufs|intros [b1 b2] EB].
  apply norm_bufs_zlen in EB. apply nofuel_bind; [apply nofuel_get|intros d0 _]. apply nofuel_bind; [apply nofuel_get|intros d1 _].
  apply nofuel_bind; [|intros; apply nofuel_ret]. destruct (Z.to_nat n) as [|n'] eqn:En; [lia|]. cbn [long_div]. unfold guess_qhat. replace (U + lnz + 0) with 17 by lia.
  rewrite as_usize_id by lia. rewrite usize_ok by lia. rewrite bind_Ret. cbv beta. rewrite get_out by lia. discriminate.
Qed.

Lemma body_any m a b lnz rnz F U ig : wf a -> wf b -> lead2 a b lnz rnz -> 1 <= rnz ->
  0 <= F <= 4 -> let n := F + qk a b lnz rnz + b2z (qge a b lnz rnz) in n <= U -> 0 <= U <= 9 -> U = Z.max 0 (exp_of a b lnz rnz) + F ->
  (exists r, div_body m (fd_lsu a) (fd_lsu b) zero_units lnz rnz (qge a b lnz rnz) U F ig n = Ret (Ok tt, mkfd (as_i8 ig) (9 * F) r) /\ loose m F ig n r) \/
  (exists p, div_body m (fd_lsu a) (fd_lsu b) zero_units lnz rnz (qge a b lnz rnz) U F ig n = Panic p /\ p <> PFuel /\
     (m = Release -> U + lnz + 1 < 18 \/ qge a b lnz rnz = false -> False)).
Proof.
  intros Ha Hb L R0 HF n HnU HU EU. pose proof (wf_counts a Ha) as CA. pose proof (wf_counts b Hb) as CB.
  pose proof (l2_a0 a b lnz rnz L) as A0. pose proof (l2_b0 a b lnz rnz L) as B0.
  assert (EK : n = F + exp_of a b lnz rnz) by (unfold n, exp_of; clear; ring).
  assert (D : (U + lnz + 1 < 18 \/ qge a b lnz rnz = false) \/ (U + lnz + 1 = 18 /\ qge a b lnz rnz = true /\ 0 < n)).
  { destruct (Z.lt_ge_cases (U + lnz + 1) 18) as [?|X]; [auto|]. destruct (qge a b lnz rnz); [right|auto].
    split; [clear - X HU A0 CA; lia|]. split; [reflexivity|]. rewrite EK. clear - X EU HF A0 CA. lia. }
  destruct D as [Room|(X & G & N)].
  2: { right. destruct (div_body m (fd_lsu a) (fd_lsu b) zero_units lnz rnz (qge a b lnz rnz) U F ig n) as [o|p] eqn:E.
    - exfalso. rewrite G in E. exact (body_no_room m _ _ _ lnz rnz U F ig n o R0 X N E).
    - exists p. split; [reflexivity|]. split; [intros ->; rewrite G in E; exact (body_no_room_fuel m _ _ _ lnz rnz U F ig n R0 X N E)|]. intros _ [Q|Q]; [clear - X Q; lia|congruence]. }
  pose proof (wf_zlen a Ha) as LA. pose proof (wf_zlen b Hb) as LB. pose proof (wf_uok a Ha) as Ua. pose proof (wf_uok b Hb) as Ub.
  pose proof (quotient_lt a b lnz rnz L) as QL.
  pose proof (l2_am a b lnz rnz L) as EA. pose proof (l2_bm a b lnz rnz L) as EB. pose proof (l2_ap a b lnz rnz L) as PA. pose proof (l2_bp a b lnz rnz L) as PB.
  pose proof (l2_bt a b lnz rnz L) as TB. pose proof (l2_at a b lnz rnz L) as TA.
  set (g := qge a b lnz rnz) in *.
  set (y := zn (fd_lsu b) rnz) in *. pose proof (nf_facts y PB) as NF. cbv zeta in NF. destruct NF as (N1 & N2 & _). pose proof (nf_half y PB) as N3.
  unfold div_body. replace (rnz =? 0) with false by (clear - R0; lia). cbv zeta. fold y.
  rewrite i64_ok by (clear - PB; unfold base in *; lia). mret. change UNIT with base. rewrite i64_div_ok by (clear - PB; unfold base in *; lia). mret.
  set (nf := base / (y + 1)) in *. clearbody nf.
  set (la := firstn (Z.to_nat (lnz + 1)) (fd_lsu a)). set (lb := firstn (Z.to_nat (rnz + 1)) (fd_lsu b)).
  assert (Ela : sg la 0 (lnz + 1) = magnitude a) by (unfold la; rewrite sg_firstn by (clear - A0; lia); symmetry; exact EA).
  assert (Elb : sg lb 0 (rnz + 1) = magnitude b) by (unfold lb; rewrite sg_firstn by (clear - B0; lia); symmetry; exact EB).
  assert (EAB : exists A B, A = magnitude a /\ B = magnitude b) by eauto. destruct EAB as (A & B & EA' & EB'). rewrite <- EA', <- EB' in *.
  pose proof (pow_base_pos lnz ltac:(clear - A0; lia)) as Pl. pose proof (pow_base_pos rnz ltac:(clear - R0; lia)) as Pr.
  assert (HnB : nf * B < base ^ (rnz + 1)).
  { rewrite base_S by (clear - R0; lia). clear - TB N1 N2 Pr. set (P := base ^ rnz) in *. clearbody P.
    apply Z.lt_le_trans with (nf * (P * (y + 1))); [apply Z.mul_lt_mono_pos_l; lia|]. replace (nf * (P * (y + 1))) with (nf * (y + 1) * P) by ring.
    apply Z.mul_le_mono_nonneg_r; lia. }
  assert (HnA : g = false -> nf * A < base ^ (lnz + 1)).
  { intros G. rewrite G in QL. cbn [b2z] in QL. rewrite Z.add_0_r in QL. rewrite base_S in * by (clear - A0 B0; lia).
    apply (Z.mul_lt_mono_pos_r (base ^ rnz)); [exact Pr|]. clear - QL HnB N1 Pl Pr. set (P := base ^ rnz) in *. set (T := base ^ lnz) in *. clearbody P T.
    apply Z.lt_trans with (nf * (B * T)); [replace (nf * A * P) with (nf * (A * P)) by ring; apply Z.mul_lt_mono_pos_l; lia|].
    replace (nf * (B * T)) with (nf * B * T) by ring. replace (base * T * P) with (base * P * T) by ring. apply Z.mul_lt_mono_pos_r; lia. }
  assert (Ula : uok la) by (apply Forall_firstn, Ua). assert (Ulb : uok lb) by (apply Forall_firstn, Ub).
  assert (Lla : zlen la = lnz + 1) by (unfold la; rewrite zlen_firstn; clear - A0 LA CA; lia).
  assert (Llb : zlen lb = rnz + 1) by (unfold lb; rewrite zlen_firstn; clear - B0 LB CB; lia).
  assert (Rm : U + lnz + 1 < 18 \/ nf * sg la 0 (lnz + 1) < base ^ (lnz + 1)).
  { rewrite Ela. destruct Room as [?|G]; [left; assumption|right; auto]. }
  assert (Rb : nf * sg lb 0 (rnz + 1) < base ^ (rnz + 1)) by (rewrite Elb; exact HnB).
  destruct (norm_bufs_ok m nf la lb U lnz rnz Ula Ulb N1 HU ltac:(clear - A0 CA; lia) ltac:(clear - B0 CB; lia) Lla Llb Rb Rm)
    as (buf1 & buf2 & E & U1 & L1 & E1 & U2 & L2 & E2).
  clear Rm Rb Lla Llb Ula Ulb.
  rewrite E. mret. rewrite Elb in E2. clear E E1 Ela Elb la lb.
  rewrite !get_ok by (clear - B0 CB L2 R0; lia). mret. mret.
  replace (as_i8 (F * DIGITS_PER_UNIT)) with (9 * F) by (change DIGITS_PER_UNIT with 9; rewrite as_i8_id by (clear - HF; lia); clear; lia).
  set (b2 := firstn (Z.to_nat (rnz + 1)) buf2).
  assert (Ub2 : uok b2) by (apply Forall_firstn, U2). assert (Lb2 : zlen b2 = rnz + 1) by (unfold b2; rewrite zlen_firstn, L2; clear - B0 CB; lia). clearbody b2.
  set (d0 := zn buf2 rnz) in *. set (d1 := zn buf2 (rnz - 1)) in *. pose proof (uok_zn buf2 rnz U2) as Bd0. fold d0 in Bd0.
  pose proof (uok_zn buf2 (rnz - 1) U2) as Bd1. fold d1 in Bd1. clearbody d1.
  assert (Hd0 : base <= 2 * d0).
  { pose proof (top_bounds buf2 rnz U2 ltac:(clear - R0; lia)) as [_ T]. fold d0 in T. rewrite E2 in T.
    assert (X : nf * y < d0 + 1); [|clear - X N3; lia]. apply (Z.mul_lt_mono_pos_l (base ^ rnz)); [exact Pr|].
    eapply Z.le_lt_trans; [|exact T]. replace (base ^ rnz * (nf * y)) with (nf * (base ^ rnz * y)) by ring. apply Z.mul_le_mono_nonneg_l; [clear - N1; lia|apply TB]. }
  clearbody d0.
  assert (Ei : exists i, i = U + lnz + (if g then 0 else -1)) by eauto. destruct Ei as (i & Ei). rewrite <- Ei.
  assert (Hi : U + lnz - 1 <= i < 17) by (clear - Ei Room HU A0 CA; destruct g; destruct Room as [Q|Q]; try discriminate; lia).
  assert (Zn : Z.of_nat (Z.to_nat n) = Z.max 0 n) by (clear; clearbody n; lia).
  assert (Nn : Z.max 0 n <= U) by (clear - HnU HU; clearbody n; lia).
  destruct (long_div_any m b2 rnz d0 d1 Ub2 Lb2 ltac:(clear - B0 CB R0; lia) Hd0 ltac:(apply Bd0) Bd1 (Z.to_nat n) buf1 i zero_units U1 L1) as [(r & Er & Ur & Lr & K)|(p & Er & NFu & NP)].
  - apply ubelow_uok, uok_repeat0.
  - reflexivity.
  - rewrite Zn. clear - Nn HU. lia.
  - clear - Hi HU A0. lia.
  - left. rewrite Er. mret. exists r. split; [reflexivity|]. split; [exact Ur|]. split; [exact Lr|]. intros k Hk. rewrite K by (rewrite Zn; exact Hk). unfold zero_units. apply zn_repeat0.
  - right. rewrite Er. cbn [bind]. exists p. split; [reflexivity|]. split; [exact NFu|]. intros M _. apply (NP M); [rewrite Zn; clear - Nn Hi A0; lia|clear - Hi; lia].
Qed.

(** ** The plan, without room for the digit counts *)
Lemma get_In (l : list Z) x u : get l x = Ret u -> In u l.
Proof.
  unfold get. destruct ((0 <=? x) && (x <? zlen l)) eqn:B; [|discriminate]. intros H. injection H as <-. apply nth_In. unfold zlen in B. lia.
Qed.
Lemma get_units_range m d u : get_units m d = Ret u -> 0 <= u <= 14.
Proof.
  unfold get_units. intros H. apply bind_inv in H. destruct H as (x & _ & H). unfold div9 in H. apply get_In in H.
  assert (F : Forall (fun v => 0 <= v <= 14) DIV9_TABLE) by (unfold DIV9_TABLE; repeat constructor; vm_compute; discriminate).
  rewrite Forall_forall in F. apply F, H.
Qed.

Lemma Ret_inj {A} (x y : A) : Ret x = Ret y -> x = y.
Proof. congruence. Qed.
Lemma div_plan_live m a b res incr oo : wf a -> wf b -> magnitude a <> 0 -> magnitude b <> 0 -> live oo -> div_abs m a b res incr = oo ->
  exists lnz rnz, lead2 a b lnz rnz /\
  ((9 < exp_of a b lnz rnz /\ oo = Ret (Err Overflow, zero)) \/
   (exists F, exp_of a b lnz rnz <= 9 /\ 0 <= F <= 4 /\ Z.max 0 (exp_of a b lnz rnz) + F <= 9 /\ qig a b lnz rnz <= 119 /\ units_for (qig a b lnz rnz) = Z.max 0 (exp_of a b lnz rnz) /\
    div_body m (fd_lsu a) (fd_lsu b) zero_units lnz rnz (qge a b lnz rnz) (Z.max 0 (exp_of a b lnz rnz) + F) F (qig a b lnz rnz) (F + qk a b lnz rnz + b2z (qge a b lnz rnz)) = oo)).
Proof.
  intros Ha Hb Na Nb LV H. pose proof (wf_counts a Ha) as CA. pose proof (wf_counts b Hb) as CB.
  pose proof (wf_zlen a Ha) as LA. pose proof (wf_zlen b Hb) as LB.
  destruct (lead2_ex a b Ha Hb Na Nb) as (lnz & rnz & EL & ER & L). exists lnz, rnz. split; [exact L|].
  pose proof (qcounts_any a b lnz rnz Ha Hb L) as QC. cbv zeta in QC.
  pose proof (qge_spec a b lnz rnz Ha Hb L) as GE.
  pose proof (l2_a0 a b lnz rnz L) as A0. pose proof (l2_b0 a b lnz rnz L) as B0.
  unfold div_abs in H. cbv zeta in H. rewrite !intg_ok in H. unfold frac in H. fold (frac_digits a) (frac_digits b) in H.
  rewrite !get_units_ok in H by lia. do 4 (rewrite bind_Ret in H; cbv beta in H). fold (iu a) (fu a) (iu b) (fu b) in H.
  rewrite ER in H. rewrite bind_Ret in H. cbv beta in H. replace (rnz <? 0) with false in H by lia. rewrite EL in H. rewrite bind_Ret in H. cbv beta in H. replace (lnz <? 0) with false in H by lia.
  rewrite !get_ok in H by lia. do 2 (rewrite bind_Ret in H; cbv beta in H). change DIGITS_PER_UNIT with 9 in H.
  apply bind_live in H; [|exact LV|nfs]. destruct H as (x & _ & H). apply bind_live in H; [|exact LV|nfs]. destruct H as (f & _ & H).
  apply bind_live in H; [|exact LV|nfs]. destruct H as (G0 & EG & H). apply get_units_range in EG.
  rewrite !slice_ok in H by lia. do 2 (rewrite bind_Ret in H; cbv beta in H). cbn [skipn Z.to_nat] in H. rewrite !Z.sub_0_r in H. rewrite GE in H. clear GE.
  unfold exp_of, qig. set (g := qge a b lnz rnz) in *. set (K := qk a b lnz rnz) in *.
  set (zr := unit_leading_zeroes (zn (fd_lsu b) rnz)) in *. set (zl := unit_leading_zeroes (zn (fd_lsu a) lnz)) in *.
  set (ig := 9 * K + zr - zl + b2z g) in *.
  replace (if g then (lnz + 1) * 9 - zl - fu a * 9 - ((rnz + 1) * 9 - zr - fu b * 9) + 1
           else (lnz + 1) * 9 - zl - fu a * 9 - ((rnz + 1) * 9 - zr - fu b * 9)) with ig in H
    by (unfold ig, K, qk, b2z; clear; destruct g; lia).
  assert (EG' : exists G, G = (if G0 >? MAX_FRAC_UNITS then MAX_FRAC_UNITS else G0) /\ 0 <= G <= 4).
  { eexists. split; [reflexivity|]. change MAX_FRAC_UNITS with 4. destruct (Z.gtb_spec G0 4); clear - EG H0; lia. }
  destruct EG' as (G & EqG & BG). rewrite <- EqG in H. clear EqG EG. change MAX_UNITS with 9 in H.
  destruct QC as (QC1 & QC2 & QB). clearbody ig.
  destruct (Z.gtb_spec ig 0) as [I|I].
  - destruct (QC1 I) as (U1 & U2). apply bind_live in H; [|exact LV|nfs]. destruct H as (pl & EP & H). apply bind_inv in EP. destruct EP as (u & EU & EP).
    apply count_i8 in EU; [|clear - QB I; lia]. destruct EU as (U3 & ->). rewrite U1 in EP.
    replace (K + b2z g >? 9) with (9 <? K + b2z g) in EP by (rewrite Z.gtb_ltb; reflexivity).
    destruct (Z.ltb_spec 9 (K + b2z g)) as [O|O]; apply Ret_inj in EP; subst pl.
    + left. split; [exact O|]. symmetry. exact H.
    + right. assert (EF : exists F, F = (if K + b2z g + G >? 9 then 9 - (K + b2z g) else G) /\ 0 <= F <= 4 /\ K + b2z g + F <= 9).
      { eexists. split; [reflexivity|]. destruct (Z.gtb_spec (K + b2z g + G) 9); clear - H0 BG O U2; lia. }
      destruct EF as (F & EqF & BF & BU). rewrite <- EqF in H. clear EqF. exists F. replace (Z.max 0 (K + b2z g)) with (K + b2z g) by lia. replace (Z.max 0 ig) with ig by lia.
      split; [exact O|]. split; [exact BF|]. split; [exact BU|]. split; [exact U3|]. split; [exact U1|].
      rewrite <- H. replace (F + (K + b2z g) - 1 + 1) with (F + K + b2z g) by (clear; lia).
      unfold div_body. cbv zeta. change DIGITS_PER_UNIT with 9. reflexivity.
  - destruct (QC2 ltac:(clear - I; lia)) as (U1 & U2). apply bind_live in H; [|exact LV|nfs]. destruct H as (pl & EP & H). apply bind_inv in EP. destruct EP as (u & EU & EP).
    apply count_i8 in EU; [|clear - QB I; lia]. destruct EU as (U3 & ->). apply Ret_inj in EP; subst pl. rewrite U2 in H. right. exists G.
    replace (Z.max 0 (K + b2z g)) with 0 by lia. replace (Z.max 0 ig) with 0 by lia.
    split; [clear - U1; lia|]. split; [exact BG|]. split; [clear - BG; lia|]. split; [clear; lia|]. split; [reflexivity|].
    rewrite <- H. replace (G - (1 - K - b2z g) + 1) with (G + K + b2z g) by (clear; lia).
    unfold div_body. cbv zeta. change DIGITS_PER_UNIT with 9. reflexivity.
Qed.
Lemma div_plan_any m a b res incr o : wf a -> wf b -> magnitude a <> 0 -> magnitude b <> 0 -> div_abs m a b res incr = Ret o ->
  exists lnz rnz, lead2 a b lnz rnz /\
  ((9 < exp_of a b lnz rnz /\ o = (Err Overflow, zero)) \/
   (exists F, exp_of a b lnz rnz <= 9 /\ 0 <= F <= 4 /\ Z.max 0 (exp_of a b lnz rnz) + F <= 9 /\ qig a b lnz rnz <= 119 /\ units_for (qig a b lnz rnz) = Z.max 0 (exp_of a b lnz rnz) /\
    div_body m (fd_lsu a) (fd_lsu b) zero_units lnz rnz (qge a b lnz rnz) (Z.max 0 (exp_of a b lnz rnz) + F) F (qig a b lnz rnz) (F + qk a b lnz rnz + b2z (qge a b lnz rnz)) = Ret o)).
Proof.
  intros Ha Hb Na Nb H. destruct (div_plan_live m a b res incr (Ret o) Ha Hb Na Nb (live_ret _ o) H) as (lnz & rnz & L & [(X & E)|R]); exists lnz, rnz; (split; [exact L|]); [left|right; exact R].
  split; [exact X|]. injection E as ->. reflexivity.
Qed.
(** Division ends. *)
Lemma n_div_abs m a b res incr : wf a -> wf b -> magnitude a <> 0 -> magnitude b <> 0 -> nofuel (div_abs m a b res incr).
Proof.
  intros Ha Hb Na Nb H. destruct (div_plan_live m a b res incr (Panic PFuel) Ha Hb Na Nb ltac:(intros p E; congruence) H) as (lnz & rnz & L & [(_ & E)|(F & X & BF & BU & _ & _ & E)]); [discriminate|].
  assert (EX : F + qk a b lnz rnz + b2z (qge a b lnz rnz) = F + exp_of a b lnz rnz) by (unfold exp_of; clear; ring).
  destruct (Z.eq_dec rnz 0) as [->|R].
  - revert E. unfold div_body. cbn [Z.eqb]. cbv zeta. match goal with |- ?o = Panic PFuel -> False => change (nofuel o) end. nfs.
  - destruct (body_any m a b lnz rnz F (Z.max 0 (exp_of a b lnz rnz) + F) (qig a b lnz rnz) Ha Hb L) as [(r & E' & _)|(p & E' & NP & _)].
    + pose proof (l2_b0 a b lnz rnz L) as B0. clear - R B0. lia.
    + exact BF.
    + rewrite EX. clear. lia.
    + clear - BF BU. lia.
    + reflexivity.
    + rewrite E in E'. discriminate.
    + rewrite E in E'. congruence.
Qed.

(** ** What is returned *)
Record loose_result (m : build) (d : fd) : Prop := mklr {
  lr_len : length (fd_lsu d) = 9%nat; lr_units : ubelow (qb m) (fd_lsu d); lr_intg : -128 <= fd_intg d < 128;
  lr_frac : fd_frac d = 9 * fu d; lr_fu : 0 <= fu d <= 4; lr_fit : iu d + fu d <= 9; lr_clean : clean d }.

Lemma loose_wf d : loose_result Debug d -> wf d /\ clean d /\ nohidden d.
Proof.
  intros [A B C D E F G]. split; [|split; [exact G|]].
  - constructor; [exact A|exact B|exact C|lia|exact F].
  - unfold nohidden. replace (frac_digits d) with (9 * fu d) by (rewrite <- D; reflexivity). rewrite Z.sub_diag. apply Z.mod_1_r.
Qed.
Lemma wf_loose m d : wf d -> clean d -> frac_digits d = 9 * fu d -> fu d <= 4 -> loose_result m d.
Proof.
  intros W C F X. pose proof (wf_counts d W). constructor; [apply W|apply ubelow_uok, wf_uok, W|apply W|exact F|lia|apply W|exact C].
Qed.
Lemma zero_loose m : loose_result m zero.
Proof. apply wf_loose; [apply wfb_wf; vm_compute; reflexivity| |reflexivity|vm_compute; discriminate]. unfold clean. repeat constructor. Qed.

Lemma sg_nonneg_zero l n : (forall k, 0 <= zn l k) -> 0 <= n -> 0 <= sg l 0 n /\ (sg l 0 n = 0 -> forall k, 0 <= k < n -> zn l k = 0).
Proof.
  intros P Hn. pattern n. apply natlike_ind; [|clear n Hn; intros n Hn [I1 I2]|exact Hn].
  - rewrite sg_nil by lia. split; [lia|]. intros _ k Hk. lia.
  - unfold Z.succ. rewrite sg_snoc by lia. rewrite Z.add_0_l. pose proof (pow_base_pos n Hn) as PP. specialize (P n) as Pn. set (Q := base ^ n) in *. clearbody Q.
    set (x := zn l n) in *. assert (0 <= Q * x) by (clearbody x; apply Z.mul_nonneg_nonneg; lia). split; [clearbody x; lia|]. intros E k Hk.
    destruct (Z.eq_dec k n) as [->|N]; [fold x; clearbody x; nia|apply I2; clearbody x; lia].
Qed.

Lemma loose_nonneg m d : loose_result m d -> forall k, 0 <= zn (fd_lsu d) k.
Proof. intros L k. pose proof (qb_le m). apply (ubelow_zn (qb m) (fd_lsu d) k); [unfold base in *; lia|apply L]. Qed.
Lemma loose_counts m d : loose_result m d -> 0 <= iu d.
Proof. intros _. unfold iu, units_for. pose proof (int_digits_range d). lia. Qed.
Lemma nth_skipn_add (l : list Z) : forall n k, nth k (skipn n l) 0 = nth (n + k) l 0.
Proof. induction l as [|x l IH]; intros [|n] k; cbn [skipn]; try reflexivity; [destruct k; reflexivity|]. apply IH. Qed.
Lemma clean_zn d k : length (fd_lsu d) = 9%nat -> clean d -> 0 <= iu d + fu d <= k -> zn (fd_lsu d) k = 0.
Proof.
  intros L C Hk. unfold clean in C. rewrite Forall_forall in C. destruct (Z.lt_ge_cases k 9) as [K|K].
  - apply C. replace (zn (fd_lsu d) k) with (nth (Z.to_nat (k - (iu d + fu d))) (skipn (Z.to_nat (iu d + fu d)) (fd_lsu d)) 0).
    + apply nth_In. rewrite skipn_length. lia.
    + rewrite nth_skipn_add. unfold zn. f_equal. lia.
  - unfold zn. apply nth_overflow. lia.
Qed.
Lemma loose_is_zero m d : loose_result m d -> magnitude d = 0 -> is_zero d = true.
Proof.
  intros L M. pose proof (loose_counts m d L). pose proof (lr_fu m d L). apply is_zero_intro. intros i Hi. rewrite magnitude_sg in M.
  destruct (Z.lt_ge_cases i (iu d + fu d)) as [K|K].
  - apply (proj2 (sg_nonneg_zero (fd_lsu d) (iu d + fu d) (loose_nonneg m d L) ltac:(lia)) M). lia.
  - apply clean_zn; [apply L|apply L|lia].
Qed.
Lemma loose_check_zero m d : loose_result m d -> loose_result m (set_neg_and_check_zero d) /\ (neg (set_neg_and_check_zero d) = true -> magnitude d <> 0).
Proof.
  intros L. pose proof (check_zero_same d (lr_intg m d L)) as S. split.
  - pose proof S as (S1 & S2 & S3). constructor.
    + rewrite S3. apply L.
    + rewrite S3. apply L.
    + unfold set_neg_and_check_zero. pose proof (int_digits_range d). pose proof (int_digits_range (set_neg d)). destruct (is_zero (set_neg d)); [rewrite set_pos_intg|rewrite set_neg_intg by apply L]; lia.
    + rewrite S2, (same_fu _ _ S). apply L.
    + rewrite (same_fu _ _ S). apply L.
    + rewrite (same_iu _ _ S), (same_fu _ _ S). apply L.
    + eapply same_clean; [exact S|apply L].
  - unfold set_neg_and_check_zero. rewrite (same_is_zero d) by (apply set_neg_same, L). intros N M. rewrite (loose_is_zero m d L M) in N. rewrite set_pos_neg in N. discriminate.
Qed.
Lemma value_mag0 d : 0 <= fu d -> (value d == 0)%Q -> magnitude d = 0.
Proof. intros H V. unfold value, Qeq in V. cbn [Qnum Qden] in V. destruct (neg d); lia. Qed.

Lemma loose_intro m a b lnz rnz F r : wf a -> wf b -> 0 <= F <= 4 -> Z.max 0 (exp_of a b lnz rnz) + F <= 9 -> qig a b lnz rnz <= 119 ->
  units_for (qig a b lnz rnz) = Z.max 0 (exp_of a b lnz rnz) -> loose m F (qig a b lnz rnz) (F + qk a b lnz rnz + b2z (qge a b lnz rnz)) r ->
  let d := mkfd (as_i8 (qig a b lnz rnz)) (9 * F) r in loose_result m d /\ neg d = false /\ int_digits d = qig a b lnz rnz /\ iu d = Z.max 0 (exp_of a b lnz rnz) /\ fu d = F.
Proof.
  intros Ha Hb BF BU BI EU (U & Lr & Z0) d. assert (B0 : 0 <= qig a b lnz rnz) by (unfold qig; clear; lia).
  assert (EX : F + qk a b lnz rnz + b2z (qge a b lnz rnz) = F + exp_of a b lnz rnz) by (unfold exp_of; clear; ring). rewrite EX in Z0. clear EX.
  set (ig := qig a b lnz rnz) in *. set (e := exp_of a b lnz rnz) in *. clearbody ig e.
  assert (Ii : int_digits d = ig) by (unfold int_digits, d; cbn [fd_intg]; rewrite as_i8_id by (clear - BI B0; lia); apply Z.mod_small; clear - BI B0; lia).
  assert (Iu : iu d = Z.max 0 e) by (unfold iu; rewrite Ii; exact EU).
  assert (Fu : fu d = F) by (unfold fu, units_for; change (frac_digits d) with (9 * F); clear; lia).
  split; [|split; [|auto]].
  - constructor.
    + cbn [d fd_lsu]. unfold zlen in Lr. clear - Lr. lia.
    + exact U.
    + cbn [d fd_intg]. rewrite as_i8_id; clear - BI B0; lia.
    + rewrite Fu. reflexivity.
    + rewrite Fu. exact BF.
    + rewrite Iu, Fu. exact BU.
    + apply clean_intro; [|rewrite Iu, Fu; clear - BF; lia]. intros k Hk. cbn [d fd_lsu]. apply Z0. rewrite Iu, Fu in Hk. clear - Hk BF. lia.
  - unfold neg. cbn [d fd_intg]. rewrite as_i8_id by (clear - BI B0; lia). apply Z.ltb_ge. exact B0.
Qed.

(** Every quotient that is returned. *)
Lemma div_abs_any m a b res incr rs d : wf a -> wf b -> magnitude a <> 0 -> magnitude b <> 0 -> div_abs m a b res incr = Ret (rs, d) ->
  exists lnz rnz, lead2 a b lnz rnz /\ ((9 < exp_of a b lnz rnz /\ rs = Err Overflow /\ d = zero) \/
    (exp_of a b lnz rnz <= 9 /\ rs = Ok tt /\ loose_result m d /\ neg d = false /\ iu d = Z.max 0 (exp_of a b lnz rnz))).
Proof.
  intros Ha Hb Na Nb H. destruct (div_plan_any m a b res incr _ Ha Hb Na Nb H) as (lnz & rnz & L & C). exists lnz, rnz. split; [exact L|].
  destruct C as [(O & E)|(F & O & BF & BU & BI & EU & E)]; [left; injection E as -> ->; auto|right].
  pose proof (wf_counts a Ha) as CA. pose proof (wf_counts b Hb) as CB. pose proof (l2_a0 a b lnz rnz L) as A0. pose proof (l2_b0 a b lnz rnz L) as B0.
  assert (EX : F + qk a b lnz rnz + b2z (qge a b lnz rnz) = F + exp_of a b lnz rnz) by (unfold exp_of; clear; ring).
  assert (X : exists r, (rs, d) = (Ok tt, mkfd (as_i8 (qig a b lnz rnz)) (9 * F) r) /\ loose m F (qig a b lnz rnz) (F + qk a b lnz rnz + b2z (qge a b lnz rnz)) r).
  { destruct (Z.eq_dec rnz 0) as [R|R].
    - destruct (body_short m a b lnz rnz F (Z.max 0 (exp_of a b lnz rnz) + F) (qig a b lnz rnz) Ha Hb L R BF) as (r & E' & W & _); [rewrite EX; clear - BU; lia|].
      rewrite E' in E. apply Ret_inj in E. exists r. split; [symmetry; exact E|]. split; [apply ubelow_uok, W|]. split; [rewrite (wrote_zlen _ _ _ _ W); reflexivity|].
      intros k Hk. pose proof (wrote_sg _ _ _ _ k 1 W ltac:(clear - Hk; lia) ltac:(right; clear - Hk; lia)) as X. rewrite !sg_1 in X. rewrite X. unfold zero_units. apply zn_repeat0.
    - destruct (body_any m a b lnz rnz F (Z.max 0 (exp_of a b lnz rnz) + F) (qig a b lnz rnz) Ha Hb L ltac:(clear - R B0; lia) BF ltac:(rewrite EX; clear; lia) ltac:(clear - BU BF; lia) eq_refl) as [(r & E' & Lo)|(p & E' & _)];
        rewrite E' in E; [|discriminate]. apply Ret_inj in E. exists r. split; [symmetry; exact E|exact Lo]. }
  destruct X as (r & X & Lo). assert (rs = Ok tt) by congruence. assert (d = mkfd (as_i8 (qig a b lnz rnz)) (9 * F) r) by congruence. subst rs d. clear X.
  destruct (loose_intro m a b lnz rnz F r Ha Hb BF BU BI EU Lo) as (R1 & R2 & _ & R4 & _). auto.
Qed.

Lemma div_to_any m a b res incr rs d : wf a -> wf b -> ~ (value a == 0)%Q -> ~ (value b == 0)%Q -> div_to m a b res incr = Ret (rs, d) ->
  loose_result m d /\ ~ negzero d /\ (neg d = true -> xorb (neg a) (neg b) = true) /\ (~ (value d == 0)%Q -> neg d = xorb (neg a) (neg b)) /\
  exists e, (pow10 (9 * (e - 1)) <= Qabs (value a / value b))%Q /\ (Qabs (value a / value b) < pow10 (9 * e))%Q /\
   ((9 < e /\ rs = Err Overflow /\ d = zero) \/ (e <= 9 /\ rs = Ok tt /\ iu d = Z.max 0 e)).
Proof.
  intros Ha Hb Na Nb H. rewrite value_zero_iff in Na, Nb by assumption. unfold div_to in H. cbv zeta in H.
  rewrite !is_neg_ok in H by (apply wf_intg; assumption). apply bind_inv in H. destruct H as ([rs0 d0] & E & H).
  destruct (div_abs_any m a b res _ rs0 d0 Ha Hb Na Nb E) as (lnz & rnz & L & C). clear E.
  pose proof (exp_bounds a b lnz rnz Ha Hb L) as EB. cbv zeta in EB. destruct EB as [E1 E2]. set (s := xorb (neg a) (neg b)) in *.
  destruct C as [(O & -> & ->)|(O & -> & Lo & P & I)]; cbn [finish_sign] in H; apply Ret_inj in H; injection H as <- <-.
  - split; [apply zero_loose|]. split; [intros [N _]; discriminate N|]. split; [discriminate|]. split; [intros X; exfalso; apply X; reflexivity|].
    exists (exp_of a b lnz rnz). split; [exact E1|]. split; [exact E2|]. left. auto.
  - assert (LD : loose_result m (if s then set_neg_and_check_zero d0 else d0) /\ (neg (if s then set_neg_and_check_zero d0 else d0) = true -> s = true /\ magnitude d0 <> 0)).
    { destruct s; [|split; [exact Lo|rewrite P; discriminate]]. destruct (loose_check_zero m d0 Lo) as [X Y]. split; [exact X|auto]. }
    destruct LD as [LD ND]. assert (SD : same_digits d0 (if s then set_neg_and_check_zero d0 else d0)) by (destruct s; [apply check_zero_same, Lo|repeat split]).
    assert (ZN : s = true -> neg (if s then set_neg_and_check_zero d0 else d0) = false -> magnitude d0 = 0).
    { intros -> X. unfold set_neg_and_check_zero in X. destruct (is_zero (set_neg d0)) eqn:Z; [apply is_zero_magnitude in Z|rewrite set_neg_neg in X by apply Lo; discriminate].
      rewrite (same_magnitude d0) in Z by (apply set_neg_same, Lo). exact Z. }
    set (d := if s then set_neg_and_check_zero d0 else d0) in *. clearbody d. pose proof (same_magnitude _ _ SD) as MD. pose proof (lr_fu m d LD) as FD.
    assert (VZ : ~ (value d == 0)%Q -> magnitude d0 <> 0).
    { intros X Y. apply X. rewrite <- MD in Y. unfold value. rewrite Y. destruct (neg d); reflexivity. }
    split; [exact LD|]. split. { intros [N V]. apply (proj2 (ND N)). rewrite <- MD. apply value_mag0; [apply FD|exact V]. }
    split; [intros N; apply (ND N)|]. split. { intros V. apply VZ in V. destruct (neg d) eqn:N; [symmetry; apply (ND eq_refl)|]. destruct s; [exfalso; apply V, ZN; reflexivity|reflexivity]. }
    exists (exp_of a b lnz rnz). split; [exact E1|]. split; [exact E2|]. right. split; [exact O|]. split; [reflexivity|]. rewrite (same_iu _ _ SD). exact I.
Qed.

(** Release: the long division returns for every divisor. *)
Lemma long_returns_release a b incr : wf a -> wf b -> long_returns Release a b incr.
Proof.
  intros Ha Hb lnz rnz L R O F U n BF Hn HU Rm. destruct (body_any Release a b lnz rnz F U (qig a b lnz rnz) Ha Hb L R BF Hn HU eq_refl) as [(r & E & _)|(p & _ & _ & NP)].
  - eauto.
  - exfalso. exact (NP eq_refl Rm).
Qed.
