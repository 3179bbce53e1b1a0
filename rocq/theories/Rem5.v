(** * The remainder as an operation on decimals. *)
From Coq Require Import ZArith List Bool Lia QArith Qabs.
From Coq Require Import ZifyBool ZifyNat.
From Verif Require Import Rust Tables Model_Base Model_Cmp Model_Arith Spec Lib Cmp AddSub Sign Mul DivBasics Div Div2 Div3 Div4 Div5 DivQ Rem Rem2 Rem3 Rem4 AddSubQ RoundQ MulQ Agree Spec_Rem RemFull.
Import ListNotations.
Open Scope Z_scope.
Ltac Zify.zify_post_hook ::= Z.div_mod_to_equations.

Record rem_result (a b d : fd) : Prop := {
  rr_wf : wf d; rr_clean : clean d; rr_tight : tight a -> tight d; rr_neg : neg d = false;
  rr_amag : mod_eq (amag d) (amag a) (amag b); rr_hid : nohidden a -> nohidden b -> nohidden d }.

(** Hidden digits. *)
Lemma al_hidden a b F : wf a -> wf b -> nohidden a -> F = Z.max (frac_digits a) (frac_digits b) -> exists z, al a b = z * 10 ^ (9 * units_for F - F).
Proof.
  intros Ha Hb N EF. pose proof (wf_counts a Ha) as CA. pose proof (wf_counts b Hb) as CB. pose proof (wf_frac a Ha) as FA. pose proof (wf_frac b Hb) as FB.
  assert (Fa : frac_digits a = fd_frac a) by reflexivity. assert (Fb : frac_digits b = fd_frac b) by reflexivity.
  assert (EU : units_for F = Z.max (fu a) (fu b)) by (unfold fu, units_for; subst F; clear; lia).
  assert (HU : 0 <= 9 * units_for F - F <= 9 * (units_for F - fu a) + (9 * fu a - frac_digits a)) by (split; [unfold units_for|]; subst F; clear; lia).
  assert (HA : 0 <= 9 * fu a - frac_digits a) by (unfold fu, units_for; clear; lia).
  unfold nohidden in N. apply Z.div_exact in N; [|apply Z.pow_nonzero; [discriminate|exact HA]].
  unfold al. rewrite N. unfold lsh. replace (Z.max 0 (fu b - fu a)) with (units_for F - fu a) by (rewrite EU; clear; lia).
  assert (X1 : 0 <= units_for F - fu a) by (rewrite EU; clear; lia).
  set (z := magnitude a / _). clearbody z. clear N.
  exists (z * 10 ^ (9 * (units_for F - fu a) + (9 * fu a - frac_digits a) - (9 * units_for F - F))).
  change base with (10 ^ 9). rewrite <- Z.pow_mul_r by (clear - X1; lia).
  rewrite (Z.mul_comm (10 ^ _) z), <- Z.mul_assoc, <- Z.pow_add_r by (clear - HA X1; lia).
  rewrite <- Z.mul_assoc, <- Z.pow_add_r by (clear - HU; lia). f_equal. f_equal. clear. lia.
Qed.
Lemma mod_hidden x y w p q : x = p * w -> y = q * w -> 0 < w -> 0 < y -> (x mod y) mod w = 0.
Proof.
  intros -> -> W Y. assert (q <> 0) by (intros ->; rewrite Z.mul_0_l in Y; discriminate Y).
  rewrite Z.mul_mod_distr_r by (clear - W H; lia). apply Z.mod_mul. clear - W. lia.
Qed.

Lemma aligned_result a b d : wf a -> wf b -> magnitude b <> 0 -> wf d -> clean d -> (tight a -> tight d) -> neg d = false ->
  frac_digits d = Z.max (frac_digits a) (frac_digits b) -> mod_eq (magnitude d) (al a b) (al b a) -> rem_result a b d.
Proof.
  intros Ha Hb Nb W C T N F M. pose proof (wf_counts a Ha) as CA. pose proof (wf_counts b Hb) as CB. pose proof (magnitude_nonneg b Hb) as Pb.
  assert (EU : fu d = Z.max (fu a) (fu b)) by (unfold fu; rewrite F; unfold units_for; clear; lia).
  assert (Y0 : 0 < al b a) by (unfold al; apply Z.mul_pos_pos; [clear - Pb Nb; lia|apply pow_base_pos; unfold lsh; clear; lia]).
  constructor; try assumption.
  - unfold mod_eq in *. rewrite (al_amag a b Ha Hb), (al_amag' a b Ha Hb). pose proof (pow_base_pos (9 - Z.max (fu a) (fu b)) ltac:(clear - CA CB; lia)) as P.
    rewrite Z.mul_mod_distr_r by (clear - P Y0; lia). rewrite <- M. unfold amag. rewrite EU. reflexivity.
  - intros Na Nb'. unfold nohidden, mod_eq in *. rewrite M.
    destruct (al_hidden a b (frac_digits d) Ha Hb Na F) as [p Ep]. destruct (al_hidden b a (frac_digits d) Hb Ha Nb' ltac:(rewrite F; clear; lia)) as [q Eq].
    fold (fu d) in Ep, Eq. apply (mod_hidden _ _ _ p q Ep Eq); [|exact Y0]. apply Z.pow_pos_nonneg; [reflexivity|]. unfold fu, units_for. clear. lia.
Qed.
Lemma zero_result a b : wf a -> wf b -> amag b <> 0 -> amag a = 0 \/ amag a = amag b -> rem_result a b zero.
Proof.
  intros Ha Hb Nb E. destruct (set_zero_facts zero) as (A & B & C & D & _ & N). constructor; auto.
  unfold mod_eq. change (amag zero) with 0. symmetry. destruct E as [->| ->]; [apply Z.mod_0_l|apply Z.mod_same]; exact Nb.
Qed.

Lemma rem_zero_dividend m a b res : wf a -> wf b -> magnitude a = 0 -> magnitude b <> 0 -> rem_abs m a b res = Ret (Ok tt, zero).
Proof.
  intros Ha Hb Na Nb. pose proof (wf_counts a Ha) as CA. pose proof (wf_counts b Hb) as CB. pose proof (wf_zlen a Ha). pose proof (wf_zlen b Hb).
  unfold rem_abs. rewrite !intg_ok. unfold frac. fold (frac_digits a) (frac_digits b).
  rewrite !get_units_ok by lia. mret. mret. mret. mret. fold (iu a) (fu a) (iu b) (fu b).
  destruct (lead_ok (fd_lsu b) (iu b + fu b)) as (k & E & L); [apply wf_uok, Hb|lia|].
  rewrite E. mret. rewrite magnitude_sg in Na, Nb.
  pose proof (leads_neg (fd_lsu b) (iu b + fu b) k (wf_uok b Hb) ltac:(lia) L) as X. replace (k <? 0) with false by (symmetry; apply Z.ltb_ge; destruct (Z.lt_ge_cases k 0); [exfalso; tauto|assumption]).
  destruct (lead_ok (fd_lsu a) (iu a + fu a)) as (k' & E' & L'); [apply wf_uok, Ha|lia|].
  rewrite E'. mret. pose proof (leads_neg (fd_lsu a) (iu a + fu a) k' (wf_uok a Ha) ltac:(lia) L') as X'. replace (k' <? 0) with true by (symmetry; apply Z.ltb_lt; tauto).
  reflexivity.
Qed.

(** A dividend of smaller magnitude is copied - if there is room for its declared units. *)
Lemma rem_copy_ok a b : wf a -> wf b -> amag a < amag b -> fu b <= fu a \/ iu a + fu b <= 9 -> exists d,
  (if fu b >? fu a
   then r <- write_slice zero_units (fu b - fu a) (iu a + fu b) (firstn (Z.to_nat (fu a + iu a)) (fd_lsu a)) ;; Ret (Ok tt, mkfd (int_digits a) (frac_digits b) r)
   else r <- write_slice zero_units 0 (fu a + iu a) (firstn (Z.to_nat (fu a + iu a)) (fd_lsu a)) ;; Ret (Ok tt, mkfd (int_digits a) (Z.max (frac_digits a) (frac_digits b)) r))
  = Ret (Ok tt, d) /\ rem_result a b d.
Proof.
  intros Ha Hb G Fit. pose proof (wf_counts a Ha) as CA. pose proof (wf_counts b Hb) as CB. pose proof (amag_nonneg a Ha) as A0.
  pose proof (wf_zlen a Ha) as LA. pose proof (wf_uok a Ha) as Ua.
  set (s := firstn (Z.to_nat (fu a + iu a)) (fd_lsu a)).
  assert (Ls : zlen s = fu a + iu a) by (unfold s; rewrite zlen_firstn; clear - LA CA; lia).
  assert (Us : uok s) by (apply Forall_firstn, Ua).
  assert (Es : sg s 0 (fu a + iu a) = magnitude a) by (unfold s; rewrite sg_firstn by (clear - CA; lia); rewrite magnitude_sg; f_equal; clear; lia).
  set (F := Z.max (frac_digits a) (frac_digits b)).
  assert (EU : units_for F = Z.max (fu a) (fu b)) by (unfold fu, units_for, F; clear; lia).
  assert (HF : 0 <= F) by (pose proof (wf_frac a Ha) as X; change (fd_frac a) with (frac_digits a) in X; clear - X; unfold F; lia).
  set (d := mkfd (int_digits a) F (blit zero_units (lsh a b) s)).
  assert (HL : 0 <= lsh a b) by (unfold lsh; clear; lia).
  assert (HI : 0 <= int_digits a < 128) by (unfold int_digits; clear; lia).
  exists d. split.
  { unfold d. destruct (Z.gtb_spec (fu b) (fu a)) as [X|X].
    - rewrite write_slice_ok by (rewrite ?zlen_zero_units; clear - X Fit CA CB Ls; lia). mret. unfold lsh. replace (Z.max 0 (fu b - fu a)) with (fu b - fu a) by (clear - X; lia).
      replace F with (frac_digits b) by (unfold F; unfold fu, units_for in X; clear - X; lia). reflexivity.
    - rewrite write_slice_ok by (rewrite ?zlen_zero_units; clear - X Fit CA CB Ls; lia). mret. unfold lsh. replace (Z.max 0 (fu b - fu a)) with 0 by (clear - X; lia). reflexivity. }
  assert (Ii : int_digits d = int_digits a) by (unfold int_digits at 1; cbn [d fd_intg]; apply Z.mod_small, HI).
  assert (Hiu : iu d = iu a) by (unfold iu; rewrite Ii; reflexivity). assert (Hfu : fu d = Z.max (fu a) (fu b)) by (unfold fu at 1; exact EU).
  assert (HLs : lsh a b + (fu a + iu a) = iu d + fu d) by (rewrite Hiu, Hfu; unfold lsh; clear; lia).
  assert (Fit9 : iu d + fu d <= 9) by (rewrite Hiu, Hfu; clear - Fit CA CB; lia).
  assert (W : wf d).
  { constructor; [cbn [d fd_lsu]; assert (LX : zlen (blit zero_units (lsh a b) s) = 9) by (apply zlen_blit; [exact HL|rewrite zlen_zero_units; clear - HLs Fit9 Ls; lia]); clear - LX; unfold zlen in LX; lia|apply uok_blit; [apply uok_repeat0|exact Us]|cbn [d fd_intg]; clear - HI; lia|exact HF|exact Fit9]. }
  assert (Z0 : forall k, 0 <= k -> zn (fd_lsu d) k = if (lsh a b <=? k) && (k <? lsh a b + zlen s) then zn s (k - lsh a b) else 0).
  { intros k Hk. cbn [d fd_lsu]. rewrite zn_blit by (rewrite ?zlen_zero_units; clear - HL HLs Fit9 Ls Hk; lia). destruct ((lsh a b <=? k) && (k <? lsh a b + zlen s)); [reflexivity|apply zn_zero_units]. }
  assert (M : magnitude d = al a b).
  { rewrite magnitude_sg. rewrite <- HLs. rewrite sg_app by (clear - HL CA; lia). rewrite sg_0.
    - rewrite (sg_ext _ s _ 0); [rewrite Es; unfold al; ring|]. intros k K. rewrite Z0 by (clear - K HL; lia). rewrite Ls. replace ((lsh a b <=? 0 + lsh a b + k) && (0 + lsh a b + k <? lsh a b + (fu a + iu a))) with true by (clear - K; lia). f_equal. clear. lia.
    - intros k K. rewrite Z0 by (clear - K; lia). replace ((lsh a b <=? k) && (k <? lsh a b + zlen s)) with false by (clear - K; lia). reflexivity. }
  assert (Nb : magnitude b <> 0) by (intros X; unfold amag in G at 2; rewrite X, Z.mul_0_l in G; clear - G A0; lia).
  apply aligned_result; auto.
  - apply clean_intro; [|clear - CA Hiu Hfu CB; lia]. intros k K. rewrite Z0 by (clear - K CA CB Hiu Hfu; lia). replace ((lsh a b <=? k) && (k <? lsh a b + zlen s)) with false by (clear - K HLs Ls; lia). reflexivity.
  - unfold tight. rewrite M, Ii, Hfu. unfold al. intros T. replace (Z.max (fu a) (fu b)) with (fu a + lsh a b) by (unfold lsh; clear; lia).
    rewrite base_pow_split by (clear - CA HL; lia). rewrite Z.mul_assoc. apply Z.mul_lt_mono_pos_r; [apply pow_base_pos, HL|exact T].
  - unfold neg. cbn [d fd_intg]. clear - HI. lia.
  - unfold mod_eq. rewrite M. symmetry. apply Z.mod_small. split; [unfold al; apply Z.mul_nonneg_nonneg; [apply magnitude_nonneg, Ha|apply Z.lt_le_incl, pow_base_pos, HL]|].
    rewrite (al_amag a b Ha Hb), (al_amag' a b Ha Hb) in G. apply Z.mul_lt_mono_pos_r in G; [exact G|apply pow_base_pos; clear - CA CB; lia].
Qed.
Lemma rem_copy_panics a b : wf a -> wf b -> fu a < fu b -> 9 < iu a + fu b -> write_slice zero_units (fu b - fu a) (iu a + fu b) (firstn (Z.to_nat (fu a + iu a)) (fd_lsu a)) = Panic PIndex.
Proof.
  intros Ha Hb G F. unfold write_slice. rewrite zlen_zero_units. replace (iu a + fu b <=? 9) with false by (clear - F; lia). rewrite andb_false_r. reflexivity.
Qed.

(** The whole remainder. *)
Lemma rem_abs_run m a b res : wf a -> wf b -> magnitude b <> 0 -> guesses_right (scaled a) (scaled b) -> (m = Debug -> guesses_small (scaled a) (scaled b)) ->
  (exists d, rem_abs m a b res = Ret (Ok tt, d) /\ rem_result a b d) \/
  (magnitude a <> 0 /\ amag a < amag b /\ fu a < fu b /\ 9 < iu a + fu b /\ rem_abs m a b res = Panic PIndex) \/
  (too_long m a b /\ exists p, rem_abs m a b res = Panic p).
Proof.
  intros Ha Hb Nb T1 T2. pose proof (wf_counts a Ha) as CA. pose proof (wf_counts b Hb) as CB.
  destruct (Z.eq_dec (magnitude a) 0) as [Na|Na].
  { left. exists zero. split; [apply rem_zero_dividend; assumption|]. apply zero_result; auto; [|left]; rewrite (amag_magnitude_zero); assumption. }
  destruct (rem_plan m a b res Ha Hb Na Nb) as (lnz & rnz & L & ->).
  destruct (Z.compare_spec (amag a) (amag b)) as [E|E|E].
  - left. exists zero. split; [reflexivity|]. apply zero_result; auto. rewrite amag_magnitude_zero; assumption.
  - destruct (Z.le_gt_cases (fu b) (fu a)) as [F|F]; [left; apply rem_copy_ok; auto|].
    destruct (Z.le_gt_cases (iu a + fu b) 9) as [R|R]; [left; apply rem_copy_ok; auto|]. right. left. split; [exact Na|]. split; [exact E|]. split; [exact F|]. split; [exact R|].
    replace (fu b >? fu a) with true by (clear - F; lia). rewrite rem_copy_panics by assumption. reflexivity.
  - assert (G : al b a < al a b).
    { rewrite (al_amag a b Ha Hb), (al_amag' a b Ha Hb) in E. apply Z.mul_lt_mono_pos_r in E; [exact E|apply pow_base_pos; clear - CA CB; lia]. }
    pose proof (l2_a0 a b lnz rnz L) as A0. pose proof (l2_b0 a b lnz rnz L) as B0.
    assert (R18 : lnz + 1 + lsh a b <= 18) by (unfold lsh; clear - A0 CA CB; lia).
    assert (TL : too_long m a b \/ ~ too_long m a b).
    { pose proof (too_long_iff m a b lnz rnz Ha Hb L) as X. destruct (Z.le_gt_cases 1 rnz) as [Y1|Y1]; [|right; rewrite X; clear - Y1; lia]. destruct (Z.eq_dec (lnz + 1 + lsh a b) 18) as [Y2|Y2]; [|right; rewrite X; tauto].
      destruct m; [left; apply X; auto|]. destruct (qge a b lnz rnz); [left; apply X; auto|right; rewrite X; intros (_ & _ & [D|D]); discriminate D]. }
    destruct TL as [TL|TL].
    { right. right. split; [exact TL|]. apply (too_long_iff m a b lnz rnz Ha Hb L) in TL. destruct TL as (Y1 & Y2 & Y3). destruct (Z.eqb_spec rnz 0) as [Y|_]; [clear - Y Y1; lia|].
      destruct (rem_long_full m a b lnz rnz Ha Hb L G Y2 Y3) as (p & ->). cbn [bind]. eauto. }
    left. rewrite (too_long_iff m a b lnz rnz Ha Hb L) in TL.
    assert (K : exists r nz, (if rnz =? 0 then rem_short m (fd_lsu a) (fd_lsu b) lnz (qge a b lnz rnz) (lsh a b) (lsh b a)
                         else rem_long m (fd_lsu a) (fd_lsu b) lnz rnz (qge a b lnz rnz) (lsh a b) (lsh b a)) = Ret (r, nz) /\
      uok r /\ zlen r = 9 /\ mod_eq (sg r 0 9) (al a b) (al b a) /\ lead_num (sg r 0 9) nz).
    { destruct (Z.eqb_spec rnz 0) as [->|R].
      - apply rem_short_ok; auto.
      - assert (R1 : 1 <= rnz) by (clear - B0 R; lia). apply rem_long_ok; auto.
        + destruct (Z.eq_dec (lnz + 1 + lsh a b) 18) as [Y|Y]; [right|left; clear - Y R18; lia]. split; [destruct m; [exfalso; apply TL; auto|reflexivity]|]. split; [exact Y|]. destruct (qge a b lnz rnz); [exfalso; apply TL; auto|reflexivity].
        + intros s S HS. apply (guesses_aligned a b lnz rnz s); auto.
        + intros M s S HS. apply (guesses_aligned a b lnz rnz s); auto. }
    destruct K as (r & nz & -> & U & Lr & M & LN). mret. 
    assert (HF : 0 <= Z.max (frac_digits a) (frac_digits b) <= 81).
    { pose proof (wf_frac a Ha) as X. change (fd_frac a) with (frac_digits a) in X. clear - X CA CB. unfold fu, units_for in *. lia. }
    destruct (rem_finish_ok m r nz (Z.max (frac_digits a) (frac_digits b)) (sg r 0 9) U Lr HF eq_refl LN) as (d & -> & W & C & T & N & F & Mg & _).
    exists d. split; [reflexivity|]. apply aligned_result; auto. rewrite Mg. exact M.
Qed.

Lemma Qabs_lt_amag a b : wf a -> wf b -> ((Qabs (value a) < Qabs (value b))%Q <-> amag a < amag b).
Proof.
  intros Ha Hb. rewrite !Qabs_value by assumption. unfold Qlt. cbn [Qnum Qden]. unfold P9. pose proof (pow_base_pos 9) as P. generalize dependent (base ^ 9). intros p P. rewrite Z2Pos.id by (apply P; lia). specialize (P ltac:(lia)). clear - P. nia.
Qed.

Lemma rem_value (s : bool) a b d d' : wf a -> wf b -> amag b <> 0 -> rem_result a b d' -> s = neg a -> d = (if s then set_neg_and_check_zero d' else d') ->
  wf d /\ clean d /\ (tight a -> tight d) /\ (nohidden a -> nohidden b -> nohidden d) /\ ~ negzero d /\ (~ (value d == 0)%Q -> neg d = neg a) /\
  exists q : Z, (value a == value b * inject_Z q + value d)%Q /\ (Qabs (value d) < Qabs (value b))%Q.
Proof.
  intros Ha Hb Nb [W C T P M H] Es ->. 
  set (d := if s then set_neg_and_check_zero d' else d').
  assert (SD : same_digits d' d) by (unfold d; destruct s; [apply check_zero_same, W|repeat split]).
  assert (WD : wf d) by (unfold d; destruct s; [apply check_zero_wf, W|exact W]).
  assert (ND : neg d = s && negb (magnitude d =? 0)).
  { rewrite (same_magnitude _ _ SD). unfold d; destruct s; [rewrite check_zero_neg by assumption; reflexivity|rewrite P; reflexivity]. }
  split; [exact WD|]. split; [eapply same_clean; eassumption|]. split; [intros X; apply (same_tight _ _ SD), T, X|]. split; [intros X Y; eapply same_nohidden; [exact SD|auto]|].
  split. { intros [N1 N2]. apply value_zero_iff in N2; [|exact WD]. rewrite ND, N2 in N1. destruct s; discriminate. }
  split. { intros V. rewrite ND, Es. replace (magnitude d =? 0) with false; [apply andb_true_r|]. symmetry. apply Z.eqb_neq. intros X. apply V. apply value_zero_iff; assumption. }
  assert (MD : amag d = amag a mod amag b) by (rewrite (same_amag _ _ SD); exact M).
  pose proof (amag_nonneg b Hb) as B0. assert (B1 : 0 < amag b) by (clear - B0 Nb; lia).
  pose proof (Z.mod_pos_bound (amag a) (amag b) B1) as BR. rewrite <- MD in BR.
  pose proof (Z.div_mod (amag a) (amag b) Nb) as DM. rewrite <- MD in DM.
  assert (NumD : num d = if s then - amag d else amag d).
  { unfold num. rewrite ND. destruct s; [|reflexivity]. cbn [andb]. destruct (Z.eqb_spec (magnitude d) 0) as [X|X]; cbn [negb]; [|reflexivity]. apply (amag_magnitude_zero d WD) in X. rewrite X. reflexivity. }
  set (q := amag a / amag b) in *. clearbody q.
  exists (if xorb s (neg b) then - q else q). split; [|apply Qabs_lt_amag; [exact WD|exact Hb|apply BR]].
  rewrite (value_num a Ha), (value_num b Hb), (value_num d WD). rewrite NumD. unfold num. rewrite <- Es.
  clear - DM. unfold Qeq, Qplus, Qmult, inject_Z. cbn [Qnum Qden]. generalize (Z.to_pos (base ^ 9)). intros p.
  rewrite ?Pos.mul_1_r, ?Pos2Z.inj_mul. rewrite DM. destruct s, (neg b); cbn [xorb]; ring.
Qed.

Lemma rem_to_run m a b res rs d : wf a -> wf b -> ~ (value b == 0)%Q -> guesses_right (scaled a) (scaled b) ->
  rem_to m a b res = Ret (rs, d) -> rs = Ok tt /\
  wf d /\ clean d /\ (tight a -> tight d) /\ (nohidden a -> nohidden b -> nohidden d) /\ ~ negzero d /\ (~ (value d == 0)%Q -> neg d = neg a) /\
  exists q : Z, (value a == value b * inject_Z q + value d)%Q /\ (Qabs (value d) < Qabs (value b))%Q.
Proof.
  intros Ha Hb Nb T1 H. assert (HR : rem_to Release a b res = Ret (rs, d)) by (destruct m; [apply (simr_ret _ _ _ (s_rem_to a b res)), H|exact H]). clear H.
  rewrite value_zero_iff in Nb by assumption. unfold rem_to in HR. rewrite is_neg_ok in HR by (apply wf_intg; assumption). cbv zeta in HR.
  destruct (rem_abs_run Release a b res Ha Hb Nb T1 ltac:(discriminate)) as [(d' & E & R)|[(_ & _ & _ & _ & E)|(_ & p & E)]]; rewrite E in HR; [|discriminate HR..].
  rewrite bind_Ret in HR. cbn [finish_sign] in HR. injection HR as <- HR. split; [reflexivity|].
  apply (rem_value (neg a) a b d d'); auto. rewrite amag_magnitude_zero; assumption.
Qed.

Lemma rem_to_returns m a b res : wf a -> wf b -> ~ (value b == 0)%Q -> ~ too_long m a b -> guesses_right (scaled a) (scaled b) ->
  (m = Debug -> guesses_small (scaled a) (scaled b)) ->
  (value a == 0)%Q \/ (Qabs (value b) <= Qabs (value a))%Q \/ fu b <= fu a \/ iu a + fu b <= 9 ->
  exists d, rem_to m a b res = Ret (Ok tt, d).
Proof.
  intros Ha Hb Nb Room T1 T2 Fit. rewrite value_zero_iff in * by assumption. unfold rem_to. cbv zeta.
  destruct (rem_abs_run m a b res Ha Hb Nb T1 T2) as [(d' & E & R)|[(N & G & F & I & E)|(X & _)]]; [rewrite E; mret; cbn [finish_sign]; eauto|exfalso|contradiction].
  destruct Fit as [X|[X|[X|X]]]; [tauto| |lia|lia]. apply (Qlt_not_le _ _ (proj2 (Qabs_lt_amag a b Ha Hb) G)), X.
Qed.
(** Too long: no remainder. *)
Lemma rem_to_too_long m a b res : wf a -> wf b -> too_long m a b -> exists p, rem_to m a b res = Panic p.
Proof.
  intros Ha Hb TL. destruct (too_long_order m a b Ha Hb TL) as (O & Na & Nb). rewrite value_zero_iff in Na, Nb by assumption. apply (Qabs_lt_amag b a Hb Ha) in O.
  unfold rem_to. cbv zeta. destruct (rem_plan m a b res Ha Hb Na Nb) as (lnz & rnz & L & ->). replace (amag a ?= amag b) with Gt by (symmetry; apply Z.compare_gt_iff, O).
  assert (G : al b a < al a b).
  { pose proof (wf_counts a Ha) as CA. pose proof (wf_counts b Hb) as CB. rewrite (al_amag a b Ha Hb), (al_amag' a b Ha Hb) in O. apply Z.mul_lt_mono_pos_r in O; [exact O|apply pow_base_pos; clear - CA CB; lia]. }
  apply (too_long_iff m a b lnz rnz Ha Hb L) in TL. destruct TL as (Y1 & Y2 & Y3). destruct (Z.eqb_spec rnz 0) as [Y|_]; [clear - Y Y1; lia|].
  destruct (rem_long_full m a b lnz rnz Ha Hb L G Y2 Y3) as (p & ->). cbn [bind]. eauto.
Qed.
Lemma rem_to_panics m a b res : wf a -> wf b -> ~ (value a == 0)%Q -> (Qabs (value a) < Qabs (value b))%Q -> fu a < fu b -> 9 < iu a + fu b ->
  rem_to m a b res = Panic PIndex.
Proof.
  intros Ha Hb Na G F R. rewrite value_zero_iff in * by assumption. apply Qabs_lt_amag in G; [|assumption..]. pose proof (amag_nonneg a Ha) as A0.
  assert (Nb : magnitude b <> 0) by (rewrite <- (amag_magnitude_zero b Hb); lia).
  unfold rem_to. cbv zeta. destruct (rem_plan m a b res Ha Hb Na Nb) as (lnz & rnz & L & ->). apply Z.compare_lt_iff in G. rewrite G.
  replace (fu b >? fu a) with true by lia. rewrite rem_copy_panics by assumption. reflexivity.
Qed.
