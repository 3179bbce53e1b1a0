(** * Rounding in terms of rational numbers. *)
From Coq Require Import ZArith List Bool Lia QArith Qabs Lqa.
From Coq Require Import ZifyBool ZifyNat.
Import ListNotations.
From Verif Require Import Rust Tables Model_Base Model_Cmp Model_Round Model_Arith Spec Lib Cmp AddSub Sign AddTo AddSubQ Basics QLib Round RoundTo.
Open Scope Z_scope.
Ltac Zify.zify_post_hook ::= Z.div_mod_to_equations.

Definition sgn (s : bool) (z : Z) : Z := if s then - z else z.

Lemma frac_le_fu d : wf d -> 0 <= frac_digits d <= 9 * fu d /\ 9 * fu d <= frac_digits d + 8.
Proof. intros H. pose proof (wf_counts d H). unfold fu, units_for. lia. Qed.

(** A magnitude that is H * 10^(9 fu - f) is the number H * 10^-f. *)
Lemma value_scaled d H f : wf d -> f <= 9 * fu d -> magnitude d = 10 ^ (9 * fu d - f) * H ->
  (value d == inject_Z (sgn (neg d) H) * pow10 (- f))%Q.
Proof.
  intros W Hf HM. rewrite (value_smag d W). unfold smag, sgn. rewrite HM.
  assert (E : (if neg d then - (10 ^ (9 * fu d - f) * H) else 10 ^ (9 * fu d - f) * H) = sgn (neg d) H * 10 ^ (9 * fu d - f)) by (unfold sgn; destruct (neg d); ring).
  rewrite E. unfold sgn. rewrite inject_Z_mult, <- pow10_nonneg by lia. rewrite <- Qmult_assoc, <- pow10_add.
  replace (9 * fu d - f + - (9 * fu d)) with (- f) by lia. reflexivity.
Qed.

Lemma Qabs_scaled s H e : 0 <= H -> (Qabs (inject_Z (sgn s H) * pow10 e) == inject_Z H * pow10 e)%Q.
Proof.
  intros HH. pose proof (pow10_pos e). rewrite Qabs_Qmult, (Qabs_pos (pow10 e)) by lra.
  unfold sgn. destruct s; [rewrite inject_Z_opp, Qabs_opp|]; rewrite Qabs_pos; try reflexivity;
  change 0%Q with (inject_Z 0); rewrite <- Zle_Qle; assumption.
Qed.

Lemma Qabs_value_pow d : wf d -> (Qabs (value d) == inject_Z (magnitude d) * pow10 (- (9 * fu d)))%Q.
Proof.
  intros W. rewrite (value_smag d W). apply (Qabs_scaled (neg d)). apply magnitude_nonneg, W.
Qed.
Lemma pow10_le a b : a <= b -> (pow10 a <= pow10 b)%Q.
Proof.
  intros H. replace b with (a + (b - a)) by lia. rewrite pow10_add, (pow10_nonneg (b - a)) by lia.
  pose proof (pow10_pos a). assert (1 <= inject_Z (10 ^ (b - a)))%Q.
  { change 1%Q with (inject_Z 1). rewrite <- Zle_Qle. pose proof (p10_pos (b - a) ltac:(lia)). lia. }
  nra.
Qed.
Lemma value_bound d : wf d -> (Qabs (value d) < pow10 (9 * iu d))%Q.
Proof.
  intros W. rewrite Qabs_value_pow by assumption. pose proof (magnitude_bound d W) as MB. pose proof (wf_counts d W).
  assert (P : (pow10 (9 * iu d) == inject_Z (base ^ (iu d + fu d)) * pow10 (- (9 * fu d)))%Q).
  { replace (base ^ (iu d + fu d)) with (10 ^ (9 * (iu d + fu d))) by (rewrite Z.pow_mul_r by lia; reflexivity).
    rewrite <- pow10_nonneg by lia. rewrite <- pow10_add.
    replace (9 * (iu d + fu d) + - (9 * fu d)) with (9 * iu d) by lia. reflexivity. }
  rewrite P. pose proof (pow10_pos (- (9 * fu d))). destruct MB as [_ MB]. rewrite Zlt_Qlt in MB. nra.
Qed.

Lemma half_up_nonneg M K : 0 <= M -> 0 <= half_up M K.
Proof.
  intros H. unfold half_up. destruct (Z_lt_ge_dec K 0).
  - rewrite (Z.pow_neg_r 10 K) by lia. destruct (M + _); reflexivity.
  - apply Z.div_pos; [|apply p10_pos; lia]. pose proof (Z.pow_nonneg 10 (K - 1) ltac:(lia)). lia.
Qed.

Definition tidy (a d : fd) (f : Z) : Prop :=
  wf d /\ neg d = neg a /\ frac_digits d = f /\ (clean a -> clean d) /\ (tight a -> tight d) /\ (nohidden a -> nohidden d).

Lemma tight_full d : wf d -> int_digits d = 9 * iu d -> tight d.
Proof.
  intros W E. unfold tight. pose proof (magnitude_bound d W). pose proof (wf_counts d W).
  rewrite E, Z.pow_mul_r by lia. change (10 ^ 9) with base. rewrite <- base_pow_split by lia. lia.
Qed.

Lemma round_result_tidy a d f S H : 0 <= f -> round_result a d f S -> S = 10 ^ (9 * units_for f - f) * H -> tidy a d f /\ nohidden d /\ tight d.
Proof.
  intros Hf (W & N & F & M & I & _ & C) HS.
  assert (Ef : fu d = units_for f) by (unfold fu, frac_digits; now rewrite F).
  assert (NH : nohidden d).
  { unfold nohidden, frac_digits. rewrite M, F, Ef, HS. rewrite Z.mul_comm. apply Z.mod_mul.
    apply Z.pow_nonzero; [lia|]. unfold units_for. lia. }
  split; [|split; [exact NH|apply tight_full; assumption]].
  repeat apply conj; auto. intros _. apply tight_full; assumption.
Qed.

Definition spare (a : fd) (f : Z) : Prop :=
  iu a + units_for f <= 9 /\ (Qabs (round_at (value a) f) < pow10 (9 * (9 - units_for f)))%Q.

(** 0 <= f: the outcome. *)
Lemma round_to_spec m a res f : wf a -> 0 <= f <= 127 -> f < frac_digits a \/ nohidden a ->
  (exists d, round_to m a res f = Ret d /\ tidy a d f /\ nohidden d /\ (value d == round_at (value a) f)%Q /\ spare a f) \/
  (exists p, round_to m a res f = Panic p /\ ~ spare a f).
Proof.
  intros Ha Hf Hor. pose proof (wf_counts a Ha) as (Hid & Hfr & HI & HF & HN).
  pose proof (frac_le_fu a Ha) as Hff.
  assert (HG : 9 * units_for f - 8 <= f <= 9 * units_for f) by (unfold units_for; lia).
  set (G := units_for f) in *.
  destruct (Z_lt_ge_dec f (frac_digits a)) as [Hlt|Hge].
  - pose proof (round_to_frac m a res f Ha ltac:(lia)) as T. cbv zeta in T. fold G in T.
    set (H := half_up (magnitude a) (9 * fu a - f)) in *.
    assert (HH : 0 <= H) by (apply half_up_nonneg, magnitude_nonneg, Ha).
    assert (RA : (round_at (value a) f == inject_Z (sgn (neg a) H) * pow10 (- f))%Q) by (apply round_at_value; [assumption|lia]).
    assert (QA : (Qabs (round_at (value a) f) == inject_Z (10 ^ (9 * G - f) * H) * pow10 (- (9 * G)))%Q).
    { rewrite RA, Qabs_scaled by assumption. rewrite inject_Z_mult, <- pow10_nonneg by lia.
      rewrite (Qmult_comm (pow10 _)), <- Qmult_assoc, <- pow10_add. replace (9 * G - f + - (9 * G)) with (- f) by lia. reflexivity. }
    assert (LT : (Qabs (round_at (value a) f) < pow10 (9 * (9 - G)))%Q <-> 10 ^ (9 * G - f) * H < base ^ 9).
    { rewrite QA. assert (P : (pow10 (9 * (9 - G)) == inject_Z (base ^ 9) * pow10 (- (9 * G)))%Q).
      { change (base ^ 9) with (10 ^ 81). rewrite <- pow10_nonneg by lia. rewrite <- pow10_add.
        replace (81 + - (9 * G)) with (9 * (9 - G)) by lia. reflexivity. }
      rewrite P. rewrite Zlt_Qlt. pose proof (pow10_pos (- (9 * G))) as PP.
      split; intros L; [|nra]. apply Qnot_le_lt. intros C. apply (Qlt_not_le _ _ L). nra. }
    assert (HGF : G <= fu a) by (subst G; unfold fu, units_for in *; lia).
    set (S := 10 ^ (9 * G - f) * H) in *.
    destruct T as [(d & E & R)|(E & HN9 & HB)].
    + left. exists d. split; [exact E|]. pose proof (round_result_tidy a d f S H ltac:(lia) R eq_refl) as (T & NH & TG).
      split; [exact T|]. split; [exact NH|].
      destruct R as (W & N & F & M & I & OR & C).
      assert (Ef : fu d = G) by (unfold fu, frac_digits; rewrite F; reflexivity).
      split. { rewrite RA. rewrite <- N. apply value_scaled; [assumption|lia|]. rewrite M, Ef. reflexivity. }
      split; [unfold G in *; lia|]. apply LT.
      pose proof (magnitude_bound d W) as MB. rewrite M in MB. eapply Z.lt_le_trans; [apply MB|].
      apply Z.pow_le_mono_r; [reflexivity|]. apply W.
    + right. exists PIndex. split; [exact E|]. intros [_ L]. apply LT in L. lia.
  - assert (NH : nohidden a) by (destruct Hor; [lia|assumption]).
    destruct (nohidden_multiple a f Ha NH ltac:(lia)) as (z & Ez).
    pose proof (round_at_multiple _ _ _ Ez) as RA.
    destruct (round_to_grow m a res f Ha ltac:(lia)) as [(HS & d & E & W & EI & EF & EM & C)|(HS & p & E)]; fold G in HS.
    + left. exists d. split; [exact E|].
      assert (EIU : iu d = iu a) by (unfold iu, int_digits; now rewrite EI).
      assert (Ef : fu d = G) by (unfold fu, frac_digits; rewrite EF; reflexivity).
      assert (HGF : fu a <= G) by (subst G; unfold fu, units_for in *; lia).
      assert (EN : neg d = neg a) by (unfold neg; now rewrite EI).
      assert (V : (value d == value a)%Q).
      { rewrite (value_scaled d (magnitude a) (9 * fu a)), (value_smag a Ha); [rewrite EN; reflexivity|assumption|lia|].
        rewrite EM, Ef. f_equal. replace (9 * G - 9 * fu a) with (9 * (G - fu a)) by lia. rewrite Z.pow_mul_r by lia. reflexivity. }
      assert (NHd : nohidden d).
      { unfold nohidden in *. rewrite EM, Ef. unfold frac_digits in *. rewrite EF.
        fold G. assert (D : (10 ^ (9 * fu a - fd_frac a) | magnitude a)) by (apply Z.mod_divide; [apply Z.pow_nonzero; lia|exact NH]).
        destruct D as [q Eq]. rewrite Eq.
        replace (base ^ (G - fu a)) with (10 ^ (9 * (G - fu a))) by (rewrite Z.pow_mul_r by lia; reflexivity).
        assert (EE : 10 ^ (9 * (G - fu a)) * 10 ^ (9 * fu a - fd_frac a) = 10 ^ (f - fd_frac a) * 10 ^ (9 * G - f)).
        { rewrite <- !Z.pow_add_r by lia. f_equal. lia. }
        replace (10 ^ (9 * (G - fu a)) * (q * 10 ^ (9 * fu a - fd_frac a))) with (q * (10 ^ (9 * (G - fu a)) * 10 ^ (9 * fu a - fd_frac a))) by ring.
        rewrite EE, Z.mul_assoc. apply Z.mod_mul. apply Z.pow_nonzero; lia. }
      assert (TG : tight a -> tight d).
      { unfold tight. rewrite EM, Ef. unfold int_digits. rewrite EI. intros T.
        assert (EG : base ^ G = base ^ fu a * base ^ (G - fu a)) by (rewrite <- base_pow_split by lia; f_equal; lia).
        rewrite EG. pose proof (pow_base_pos (G - fu a) ltac:(lia)) as PB. rewrite Z.mul_comm, Z.mul_assoc. apply Z.mul_lt_mono_pos_r; assumption. }
      split. { repeat apply conj; auto. } split; [exact NHd|]. split; [rewrite V; symmetry; exact RA|].
      split; [unfold G in *; lia|]. rewrite RA. eapply Qlt_le_trans; [apply value_bound, Ha|]. apply pow10_le. fold G in HS |- *. lia.
    + right. exists p. split; [exact E|]. unfold spare. fold G. lia.
Qed.

(** negative positions *)
Lemma round_to_neg_spec m a res f : wf a -> f < 0 -> - f < int_digits a ->
  let v := if f mod 9 =? 0 then truncate_at (value a) f else round_at (value a) f in
  (exists d, round_to m a res f = Ret d /\ tidy a d 0 /\ nohidden d /\ tight d /\ (value d == v)%Q) \/
  (round_to m a res f = Panic PIndex /\ ~ (Qabs v < pow10 81)%Q).
Proof.
  intros Ha Hf Hi v. pose proof (wf_counts a Ha) as (Hid & Hfr & HI & HF & HN).
  set (K := 9 * fu a - f).
  set (H := if f mod 9 =? 0 then magnitude a / 10 ^ K else half_up (magnitude a) K).
  assert (HH : 0 <= H).
  { subst H. destruct (f mod 9 =? 0); [|apply half_up_nonneg, magnitude_nonneg, Ha].
    apply Z.div_pos; [apply magnitude_nonneg, Ha|apply p10_pos; lia]. }
  assert (V : (v == inject_Z (sgn (neg a) H) * pow10 (- f))%Q).
  { subst v H K. destruct (f mod 9 =? 0); [apply truncate_at_value|apply round_at_value]; auto; lia. }
  assert (ES : neg_rounded (magnitude a) (fu a) (- f) = 10 ^ (- f) * H).
  { unfold neg_rounded. subst H. replace (- f mod 9 =? 0) with (f mod 9 =? 0) by lia.
    replace (9 * fu a + - f) with K by (subst K; lia). reflexivity. }
  pose proof (round_to_neg m a res f Ha Hf Hi) as T. cbv zeta in T. rewrite ES in T.
  assert (EV : (inject_Z (sgn (neg a) H) * pow10 (- f) == inject_Z (sgn (neg a) (10 ^ (- f) * H)) * pow10 0)%Q).
  { replace (sgn (neg a) (10 ^ (- f) * H)) with (sgn (neg a) H * 10 ^ (- f)) by (unfold sgn; destruct (neg a); ring).
    rewrite inject_Z_mult, <- pow10_nonneg by lia. rewrite pow10_0. ring. }
  destruct T as [(d & E & R)|(E & HN9 & HB)]; [left|right].
  - exists d. split; [exact E|]. pose proof (round_result_tidy a d 0 _ (10 ^ (- f) * H) ltac:(lia) R) as T.
    change (units_for 0) with 0 in T. change (10 ^ (9 * 0 - 0)) with 1 in T. rewrite Z.mul_1_l in T.
    destruct (T eq_refl) as (T1 & T2 & T3). repeat (split; [assumption|]).
    destruct R as (W & N & F & M & _).
    assert (Ef : fu d = 0) by (unfold fu, frac_digits; now rewrite F).
    rewrite V, EV, <- N. apply (value_scaled d _ 0); [assumption|lia|]. rewrite M, Ef. change (10 ^ (9 * 0 - 0)) with 1. lia.
  - split; [exact E|]. rewrite V, EV, Qabs_scaled by (pose proof (p10_pos (- f)); nia).
    rewrite pow10_0, Qmult_1_r, pow10_nonneg, <- Zlt_Qlt by lia. change (10 ^ 81) with (base ^ 9). lia.
Qed.

(** A position above all digits of a decimal whose digits fit. *)
Lemma round_at_small q f : (Qabs q < pow10 (- f) * (1 # 2))%Q -> (round_at q f == 0)%Q.
Proof.
  intros H. unfold round_at. assert (E : round_away (q * pow10 f) = 0).
  { apply Qabs_Qlt_condition in H. destruct H as [H1 H2]. pose proof (pow10_pos f) as P.
    pose proof (pow10_inv f) as PI.
    set (t := pow10 (- f)) in *. set (pp := pow10 f) in *. clearbody t pp.
    assert (B1 : (- (1 # 2) < q * pp)%Q) by nra.
    assert (B2 : (q * pp < 1 # 2)%Q) by nra.
    unfold round_away. set (x := (q * pp)%Q) in *. clearbody x. destruct (Qle_bool 0 x) eqn:E.
    - apply Qle_bool_iff in E. apply Z.le_antisymm.
      + apply Z.lt_succ_r. rewrite Zlt_Qlt. eapply Qle_lt_trans; [apply Qround.Qfloor_le|]. change (inject_Z (Z.succ 0)) with 1%Q. lra.
      + change 0 with (Qround.Qfloor 0). apply Qround.Qfloor_resp_le. lra.
    - assert (~ (0 <= x)%Q) by (rewrite <- Qle_bool_iff; congruence).
      enough (Qround.Qfloor (- x + (1 # 2)) = 0) by lia. apply Z.le_antisymm.
      + apply Z.lt_succ_r. rewrite Zlt_Qlt. eapply Qle_lt_trans; [apply Qround.Qfloor_le|]. change (inject_Z (Z.succ 0)) with 1%Q. lra.
      + change 0 with (Qround.Qfloor 0). apply Qround.Qfloor_resp_le. lra. }
  rewrite E. change (inject_Z 0) with 0%Q. ring.
Qed.

Lemma tight_bound d : wf d -> tight d -> (Qabs (value d) < pow10 (int_digits d))%Q.
Proof.
  intros W T. rewrite Qabs_value_pow by assumption. unfold tight in T. pose proof (wf_counts d W).
  assert (P : (pow10 (int_digits d) == inject_Z (10 ^ int_digits d * base ^ fu d) * pow10 (- (9 * fu d)))%Q).
  { replace (base ^ fu d) with (10 ^ (9 * fu d)) by (rewrite Z.pow_mul_r by lia; reflexivity).
    rewrite <- Z.pow_add_r, <- pow10_nonneg by lia. rewrite <- pow10_add.
    replace (int_digits d + 9 * fu d + - (9 * fu d)) with (int_digits d) by lia. reflexivity. }
  rewrite P. pose proof (pow10_pos (- (9 * fu d))). rewrite Zlt_Qlt in T. nra.
Qed.

Lemma round_to_high m a res f : wf a -> -9223372036854775807 < f < 0 -> int_digits a <= - f ->
  round_to m a res f = Ret zero /\ (tight a -> int_digits a < - f -> (round_at (value a) f == 0)%Q).
Proof.
  intros Ha Hf Hi. split; [apply round_to_zero; assumption|]. intros T Hlt.
  apply round_at_small. eapply Qlt_le_trans; [apply tight_bound; assumption|].
  eapply Qle_trans; [apply (pow10_le _ (- f - 1)); lia|].
  replace (- f) with ((- f - 1) + 1) at 2 by lia. rewrite pow10_add. change (pow10 1) with 10%Q.
  pose proof (pow10_pos (- f - 1)). nra.
Qed.

(** In place, growing by whole units: the low units keep a copy of the old ones. *)
Lemma round_grow m a fr : wf a -> clean a -> frac_digits a <= fr <= 119 ->
  let G := units_for fr in fu a < G -> iu a + G <= 9 ->
  exists d, round m a fr = Ret d /\ wf d /\ fd_intg d = fd_intg a /\ fd_frac d = fr /\ clean d /\
     magnitude d = base ^ (G - fu a) * magnitude a + magnitude a mod base ^ (G - fu a).
Proof.
  intros Ha Ca Hf G HG HN9. pose proof (wf_counts a Ha) as (Hi & Hfr & HI & HF & HN).
  pose proof (wf_zlen a Ha) as L. pose proof (wf_uok a Ha) as U.
  assert (HC : forall k, iu a + fu a <= k -> zn (fd_lsu a) k = 0) by (apply (clean_elim a Ha Ca)).
  unfold round. rewrite intg_units_ok, frac_units_ok by assumption. mret. mret. cbv zeta.
  unfold frac. fold (frac_digits a).
  replace (fr >=? frac_digits a) with true by lia. rewrite as_i8_id by lia.
  rewrite get_units_ok by lia. mret. fold G.
  assert (DI : forall l, iu (mkfd (fd_intg a) fr l) = iu a) by reflexivity.
  assert (DF : forall l, fu (mkfd (fd_intg a) fr l) = G) by reflexivity.
  assert (MA : magnitude a = sg (fd_lsu a) 0 (iu a + fu a)) by apply magnitude_sg.
  set (F := fu a) in *. set (I := iu a) in *. clearbody G F I.
  replace (G =? F) with false by lia. rewrite usize_ok by lia. mret. rewrite copy_within_ok by lia. mret.
  rewrite Z.sub_0_r. change (skipn (Z.to_nat 0) (fd_lsu a)) with (fd_lsu a).
  set (s := firstn (Z.to_nat (F + I)) (fd_lsu a)).
  assert (Ls : zlen s = F + I) by (subst s; rewrite zlen_firstn; lia).
  eexists; split; [reflexivity|].
  assert (ZB : forall k, 0 <= k -> zn (blit (fd_lsu a) (G - F) s) k = if (G - F <=? k) && (k <? G + I) then zn (fd_lsu a) (k - (G - F)) else zn (fd_lsu a) k).
  { intros k Hk. rewrite zn_blit by (rewrite ?Ls; lia). rewrite Ls.
    replace (G - F + (F + I)) with (G + I) by lia. destruct ((G - F <=? k) && (k <? G + I)) eqn:B; [|reflexivity].
    subst s. rewrite zn_firstn by lia. replace (k - (G - F) <? Z.of_nat (Z.to_nat (F + I))) with true by lia. reflexivity. }
  set (l2 := blit (fd_lsu a) (G - F) s) in *.
  assert (L2 : zlen l2 = 9) by (subst l2; rewrite zlen_blit by (rewrite ?Ls; lia); assumption).
  assert (U2 : uok l2) by (subst l2; apply uok_blit; [assumption | subst s; apply Forall_firstn, U]).
  split. { constructor; rewrite ?DI, ?DF; cbn [fd_lsu fd_intg fd_frac]; [apply zlen_9; assumption|exact U2|apply Ha|lia|lia]. }
  split; [reflexivity|]. split; [reflexivity|]. split.
  { apply clean_intro; rewrite DI, DF; cbn [fd_lsu]; [|lia]. intros k Hk. rewrite ZB by lia.
    replace ((G - F <=? k) && (k <? G + I)) with false by lia. apply HC. lia. }
  rewrite magnitude_sg, DI, DF. cbn [fd_lsu]. replace (I + G) with ((G - F) + (I + F)) by lia.
  rewrite sg_app by lia. rewrite Z.add_comm. f_equal.
  - f_equal. rewrite MA. apply sg_ext. intros k Hk. rewrite ZB by lia.
    replace ((G - F <=? 0 + (G - F) + k) && (0 + (G - F) + k <? G + I)) with true by lia. f_equal. lia.
  - assert (E0 : sg l2 0 (G - F) = sg (fd_lsu a) 0 (G - F)).
    { apply sg_ext. intros k Hk. rewrite ZB by lia. replace ((G - F <=? 0 + k) && (0 + k <? G + I)) with false by lia. reflexivity. }
    rewrite E0. assert (E1 : magnitude a = sg (fd_lsu a) 0 9).
    { replace 9 with ((I + F) + (9 - (I + F))) by lia. rewrite sg_app by lia. rewrite (sg_0 _ (0 + (I + F))) by (intros k Hk; apply HC; lia). lia. }
    rewrite E1. replace 9 with ((G - F) + (9 - (G - F))) by lia. rewrite sg_app by lia.
    rewrite Z.mul_comm, Z.mod_add by (pose proof (pow_base_pos (G - F)); lia).
    symmetry. apply Z.mod_small. apply sg_bound; [assumption|lia].
Qed.

Lemma same_fields d d' : wf d -> wf d' -> clean d -> clean d' -> fd_intg d = fd_intg d' -> fd_frac d = fd_frac d' -> magnitude d = magnitude d' -> d = d'.
Proof.
  intros W W' C C' EI EF EM.
  assert (EU : iu d' = iu d) by (unfold iu, int_digits; now rewrite EI).
  assert (EV : fu d' = fu d) by (unfold fu, frac_digits; now rewrite EF).
  destruct d as [i f l] eqn:D, d' as [i' f' l'] eqn:D'. cbn [fd_intg fd_frac] in EI, EF. subst i' f'. f_equal.
  rewrite <- D, <- D' in *. rewrite !magnitude_sg, EU, EV in EM.
  replace l with (fd_lsu d) by now rewrite D. replace l' with (fd_lsu d') by now rewrite D'. clear D D' l l' i f.
  apply zn_ext; [rewrite (wf_len d W), (wf_len d' W'); reflexivity|]. intros k Hk. rewrite (wf_zlen d W) in Hk.
  destruct (Z_lt_ge_dec k (iu d + fu d)).
  - apply (sg_inj (fd_lsu d) (fd_lsu d') 0 0 (iu d + fu d) (wf_uok d W) (wf_uok d' W') EM k). lia.
  - rewrite (clean_elim d W C), (clean_elim d' W' C') by lia. reflexivity.
Qed.

Lemma round_agree_iff m a res f : wf a -> clean a -> frac_digits a <= f <= 119 ->
  fu a < units_for f -> iu a + units_for f <= 9 ->
  exists d d', round m a f = Ret d /\ round_to m a res f = Ret d' /\
    (d = d' <-> magnitude a mod base ^ (units_for f - fu a) = 0) /\
    ((value d == value d')%Q <-> magnitude a mod base ^ (units_for f - fu a) = 0).
Proof.
  intros Ha Ca Hf HG HN. destruct (round_grow m a f Ha Ca Hf HG HN) as (d & E & W & EI & EF & C & M).
  pose proof (wf_counts a Ha) as (Hi & Hfr & HI & HF & HNN).
  destruct (round_to_grow m a res f Ha ltac:(lia)) as [(_ & d' & E' & W' & EI' & EF' & M' & C')|(B & _)]; [|lia].
  assert (NN : neg d = neg d') by (unfold neg; now rewrite EI, EI').
  assert (FF : fu d = fu d') by (unfold fu, frac_digits; now rewrite EF, EF').
  pose proof (Z.mod_pos_bound (magnitude a) (base ^ (units_for f - fu a)) ltac:(apply pow_base_pos; lia)) as MB.
  exists d, d'. split; [exact E|]. split; [exact E'|]. split.
  - split; intros H.
    + subst d'. lia.
    + apply same_fields; auto; congruence || lia.
  - rewrite (value_smag d W), (value_smag d' W'). rewrite FF. split; intros H.
    + apply Qmult_inj_r in H; [|pose proof (pow10_pos (- (9 * fu d'))); lra].
      unfold Qeq, inject_Z in H; cbn [Qnum Qden] in H. unfold smag in H. rewrite NN in H. destruct (neg d'); lia.
    + assert (EM : smag d = smag d') by (unfold smag; rewrite NN; destruct (neg d'); lia). rewrite EM. reflexivity.
Qed.

(** Laws *)
Lemma round_to_spec_ret m a res f d : wf a -> 0 <= f <= 127 -> f < frac_digits a \/ nohidden a -> round_to m a res f = Ret d ->
  wf d /\ (value d == round_at (value a) f)%Q /\ frac_digits d = f /\ neg d = neg a /\ nohidden d /\
  (clean a -> clean d) /\ (tight a -> tight d).
Proof.
  intros Ha Hf Hor E. destruct (round_to_spec m a res f Ha Hf Hor) as [(d' & E' & T & NH & V & _)|(p & E' & _)].
  - rewrite E' in E. injection E as <-. destruct T as (W & N & F & C & TG & _). repeat apply conj; auto.
  - congruence.
Qed.
Lemma round_to_returns m a res f : wf a -> 0 <= f <= 127 -> f < frac_digits a \/ nohidden a ->
  ((exists d, round_to m a res f = Ret d) <->
   iu a + units_for f <= 9 /\ (Qabs (round_at (value a) f) < pow10 (9 * (9 - units_for f)))%Q).
Proof.
  intros Ha Hf Hor. destruct (round_to_spec m a res f Ha Hf Hor) as [(d' & E' & _ & _ & _ & S)|(p & E' & S)].
  - split; [intros _; exact S|]. intros _. exists d'. exact E'.
  - split; [|intros C; contradiction]. intros [d E]. congruence.
Qed.
Lemma round_to_keeps m a res f d : wf a -> frac_digits a <= f <= 127 -> round_to m a res f = Ret d ->
  wf d /\ (value d == value a)%Q /\ frac_digits d = f /\ neg d = neg a.
Proof.
  intros Ha Hf E. pose proof (wf_counts a Ha).
  destruct (round_to_grow m a res f Ha Hf) as [(HS & d' & E' & W & EI & EF & EM & C)|(HS & p & E')]; [|congruence].
  rewrite E' in E. injection E as <-. split; [exact W|]. split; [|split; [exact EF|unfold neg; now rewrite EI]].
  assert (Ef : fu d' = units_for f) by (unfold fu, frac_digits; now rewrite EF).
  assert (HG : fu a <= units_for f) by (unfold fu, units_for; lia).
  rewrite (value_scaled d' (magnitude a) (9 * fu a)), (value_smag a Ha); [|assumption|lia|].
  - unfold smag, sgn. assert (N : neg d' = neg a) by (unfold neg; now rewrite EI). rewrite N. reflexivity.
  - rewrite EM, Ef. f_equal. replace (9 * units_for f - 9 * fu a) with (9 * (units_for f - fu a)) by lia. rewrite Z.pow_mul_r by lia. reflexivity.
Qed.
Lemma round_to_same m a res : wf a -> round_to m a res (frac_digits a) = Ret a.
Proof.
  intros Ha. pose proof (wf_counts a Ha).
  unfold round_to. rewrite intg_units_ok, frac_units_ok by assumption. mret. mret. cbv zeta. cbn [fd_intg fd_frac fd_lsu set_zero reset_units].
  unfold frac. fold (frac_digits a). rewrite Z.geb_leb, Z.leb_refl. rewrite as_i8_id, get_units_ok by lia. mret.
  fold (fu a). rewrite Z.eqb_refl. destruct a; reflexivity.
Qed.
Lemma round_to_twice m a res res' f d : wf a -> 0 <= f <= 127 -> f < frac_digits a \/ nohidden a ->
  round_to m a res f = Ret d -> round_to m d res' f = Ret d.
Proof.
  intros Ha Hf Hor E. destruct (round_to_spec_ret m a res f d Ha Hf Hor E) as (W & _ & F & _).
  rewrite <- F. apply round_to_same, W.
Qed.
Lemma round_to_mono m a b r1 r2 f da db : wf a -> wf b -> nohidden a -> nohidden b -> 0 <= f <= 127 ->
  round_to m a r1 f = Ret da -> round_to m b r2 f = Ret db ->
  cmp m a b <> Ret Gt -> cmp m da db <> Ret Gt.
Proof.
  intros Ha Hb Na Nb Hf Ea Eb.
  destruct (round_to_spec_ret m a r1 f da Ha Hf (or_intror Na) Ea) as (Wa & Va & _ & Sa & _).
  destruct (round_to_spec_ret m b r2 f db Hb Hf (or_intror Nb) Eb) as (Wb & Vb & _ & Sb & _).
  rewrite !cmp_numeric by assumption. rewrite Sa, Sb. intros H.
  assert (HV : (value a <= value b)%Q).
  { apply Qnot_lt_le. intros L. apply H. apply Qgt_alt in L. rewrite L. reflexivity. }
  assert (HR : (value da <= value db)%Q) by (rewrite Va, Vb; apply round_at_mono; exact HV).
  destruct (Qcompare (value da) (value db)) eqn:Ed; [|discriminate|].
  - destruct (neg a) eqn:A, (neg b) eqn:B; try discriminate. exfalso. apply H.
    assert (0 <= value a)%Q by (unfold value; rewrite A; unfold Qle; cbn [Qnum Qden]; pose proof (magnitude_nonneg a Ha); lia).
    assert (value b <= 0)%Q by (unfold value; rewrite B; unfold Qle; cbn [Qnum Qden]; pose proof (magnitude_nonneg b Hb); lia).
    assert (E : (value a == value b)%Q) by lra. apply Qeq_alt in E. rewrite E. reflexivity.
  - exfalso. apply Qgt_alt in Ed. lra.
Qed.
Lemma round_to_close m a res f d : wf a -> nohidden a -> 0 <= f <= 127 -> round_to m a res f = Ret d ->
  (Qabs (value d - value a) <= pow10 (- f) * (1 # 2))%Q.
Proof.
  intros Ha Na Hf E. destruct (round_to_spec_ret m a res f d Ha Hf (or_intror Na) E) as (_ & -> & _). apply round_at_close.
Qed.
Lemma round_to_eq m a b r1 r2 f da db : wf a -> wf b -> nohidden a -> nohidden b -> 0 <= f <= 127 ->
  round_to m a r1 f = Ret da -> round_to m b r2 f = Ret db -> eq m a b = Ret true -> eq m da db = Ret true.
Proof.
  intros Ha Hb Na Nb Hf Ea Eb E.
  destruct (round_to_spec_ret m a r1 f da Ha Hf (or_intror Na) Ea) as (Wa & Va & _ & Sa & _).
  destruct (round_to_spec_ret m b r2 f db Hb Hf (or_intror Nb) Eb) as (Wb & Vb & _ & Sb & _).
  destruct (eq_iff m a b Ha Hb) as (r & E1 & Hr). rewrite E in E1. injection E1 as <-.
  destruct (proj1 Hr eq_refl) as [HV HS].
  destruct (eq_iff m da db Wa Wb) as (r' & E2 & Hr'). rewrite E2. f_equal. apply Hr'.
  split; [rewrite Va, Vb; apply round_at_comp; exact HV|congruence].
Qed.

(** every negative argument *)
Lemma round_to_neg_wf m a res f d : wf a -> -9223372036854775807 < f < 0 -> round_to m a res f = Ret d -> wf d /\ frac_digits d = 0.
Proof.
  intros Ha Hf E. destruct (Z_lt_ge_dec (- f) (int_digits a)) as [H|H].
  - destruct (round_to_neg_spec m a res f Ha ltac:(lia) H) as [(d' & E' & T & _)|(E' & _)]; [|congruence].
    rewrite E' in E. injection E as <-. destruct T as (W & _ & F & _). auto.
  - destruct (round_to_high m a res f Ha Hf ltac:(lia)) as [E' _]. rewrite E' in E. injection E as <-.
    split; [|reflexivity]. constructor; cbn; try lia; repeat constructor; lia.
Qed.
