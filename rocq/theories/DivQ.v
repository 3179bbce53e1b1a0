(** * Division as an operation on rational numbers. *)
From Coq Require Import ZArith List Bool Lia QArith Qabs Qround.
From Coq Require Import ZifyBool ZifyNat.
Import ListNotations.
From Verif Require Import Rust Tables Model_Base Model_Cmp Model_Arith Spec Lib Cmp AddSub Sign QLib Mul MulQ DivBasics Div3 Div5 Agree.
Open Scope Z_scope.
Ltac Zify.zify_post_hook ::= Z.div_mod_to_equations.

Lemma pow10_base n : 0 <= n -> (pow10 (9 * n) == inject_Z (base ^ n))%Q.
Proof. intros H. rewrite pow10_nonneg by lia. change base with (10 ^ 9). rewrite <- Z.pow_mul_r by lia. reflexivity. Qed.

Lemma abs_mag10 d : wf d -> (Qabs (value d) == inject_Z (magnitude d) * pow10 (- (9 * fu d)))%Q.
Proof.
  intros H. pose proof (wf_counts d H). rewrite <- (abs_mag d H), <- pow10_base by lia. rewrite <- Qmult_assoc, (Qmult_comm (pow10 (9 * fu d))), pow10_inv. ring.
Qed.

Lemma abs_quotient a b : wf a -> wf b -> magnitude b <> 0 ->
  (Qabs (value a / value b) * inject_Z (magnitude b) == inject_Z (magnitude a) * pow10 (9 * (fu b - fu a)))%Q.
Proof.
  intros Ha Hb Nb. unfold Qdiv. rewrite Qabs_Qmult, Qabs_Qinv. rewrite (abs_mag10 a Ha), (abs_mag10 b Hb).
  replace (9 * (fu b - fu a)) with (- (9 * fu a) + 9 * fu b) by lia. rewrite pow10_add.
  assert (P : ~ (pow10 (- (9 * fu b)) == 0)%Q) by (intros E; pose proof (pow10_pos (- (9 * fu b))) as X; rewrite E in X; discriminate X).
  assert (M : ~ (inject_Z (magnitude b) == 0)%Q) by (intros E; apply Nb; unfold Qeq in E; cbn in E; lia).
  assert (I : (/ (pow10 (- (9 * fu b))) == pow10 (9 * fu b))%Q).
  { apply (Qmult_inj_l _ _ _ P). rewrite Qmult_inv_r by exact P. rewrite pow10_inv. reflexivity. }
  rewrite Qinv_mult_distr, I. field. exact M.
Qed.

Lemma floor_quotient a b F : wf a -> wf b -> magnitude b <> 0 -> 0 <= F ->
  Qfloor (Qabs (value a / value b) * pow10 (9 * F)) = quotient_units a b F.
Proof.
  intros Ha Hb Nb HF. pose proof (wf_counts a Ha). pose proof (wf_counts b Hb). pose proof (magnitude_nonneg b Hb).
  pose proof (pow_base_pos (fu a) ltac:(lia)) as Pa.
  assert (PB : 0 < magnitude b * base ^ fu a) by (apply Z.mul_pos_pos; lia).
  assert (E : (Qabs (value a / value b) * pow10 (9 * F) == magnitude a * base ^ (F + fu b) # Z.to_pos (magnitude b * base ^ fu a))%Q).
  { apply (Qmult_inj_r _ _ (inject_Z (magnitude b * base ^ fu a))); [intros X; unfold Qeq in X; cbn in X; lia|].
    transitivity (inject_Z (magnitude a * base ^ (F + fu b))).
    - rewrite !inject_Z_mult, <- !pow10_base by lia.
      transitivity (Qabs (value a / value b) * inject_Z (magnitude b) * (pow10 (9 * F) * pow10 (9 * fu a)))%Q; [ring|].
      rewrite abs_quotient by assumption. rewrite <- pow10_add. rewrite <- Qmult_assoc, <- pow10_add. replace (9 * (fu b - fu a) + (9 * F + 9 * fu a)) with (9 * (F + fu b)) by lia. reflexivity.
    - unfold Qeq, Qmult, inject_Z. cbn [Qnum Qden]. rewrite Pos.mul_1_r, Z2Pos.id by exact PB. ring. }
  rewrite E. unfold Qfloor. rewrite Z2Pos.id by exact PB. reflexivity.
Qed.

Lemma exp_bounds a b lnz rnz : wf a -> wf b -> lead2 a b lnz rnz -> let e := exp_of a b lnz rnz in
  (pow10 (9 * (e - 1)) <= Qabs (value a / value b))%Q /\ (Qabs (value a / value b) < pow10 (9 * e))%Q.
Proof.
  intros Ha Hb L e. pose proof (quotient_lt a b lnz rnz L) as QL. pose proof (quotient_ge a b lnz rnz L) as QG.
  pose proof (l2_a0 a b lnz rnz L) as A0. pose proof (l2_b0 a b lnz rnz L) as B0. pose proof (b2z_range (qge a b lnz rnz)) as G.
  pose proof (l2_bt a b lnz rnz L) as TB. pose proof (l2_bp a b lnz rnz L) as PB. pose proof (pow_base_pos rnz ltac:(lia)) as PR.
  assert (MB : 0 < magnitude b) by (clear - TB PB PR; nia).
  pose proof (abs_quotient a b Ha Hb ltac:(lia)) as AQ.
  unfold e, exp_of, qk. clear e. set (g := b2z (qge a b lnz rnz)) in *. clearbody g. set (q := Qabs (value a / value b)) in *. clearbody q.
  rewrite Zlt_Qlt, !inject_Z_mult, <- !pow10_base in QL by lia. rewrite Zle_Qle, !inject_Z_mult, <- !pow10_base in QG by lia.
  pose proof (inject_pos _ MB) as QB. set (B := inject_Z (magnitude b)) in *. set (A := inject_Z (magnitude a)) in *. clearbody A B. clear - AQ QL QG QB.
  set (s := pow10 (9 * (fu b - fu a)) ) in *. pose proof (pow10_pos (9 * (fu b - fu a))) as Ps. fold s in Ps.
  split.
  - apply (Qmult_lt_0_le_reg_r _ _ (B * pow10 (9 * (rnz + 1)))).
    { apply Qmult_lt_0_compat; [exact QB|apply pow10_pos]. }
    setoid_replace (q * (B * pow10 (9 * (rnz + 1))))%Q with (A * pow10 (9 * (rnz + 1)) * s)%Q by (rewrite Qmult_assoc, AQ; ring).
    setoid_replace (pow10 (9 * (lnz - fu a - (rnz - fu b) + g - 1)) * (B * pow10 (9 * (rnz + 1))))%Q with (B * pow10 (9 * (lnz + g)) * s)%Q.
    + apply Qmult_le_compat_r; [exact QG|apply Qlt_le_weak, Ps].
    + unfold s. rewrite <- Qmult_assoc, <- pow10_add. rewrite (Qmult_comm _ (B * _)), <- Qmult_assoc, <- pow10_add. 
      replace (9 * (rnz + 1) + 9 * (lnz - fu a - (rnz - fu b) + g - 1)) with (9 * (lnz + g) + 9 * (fu b - fu a)) by lia. reflexivity.
  - apply (Qmult_lt_r _ _ (B * pow10 (9 * rnz))).
    { apply Qmult_lt_0_compat; [exact QB|apply pow10_pos]. }
    setoid_replace (q * (B * pow10 (9 * rnz)))%Q with (A * pow10 (9 * rnz) * s)%Q by (rewrite Qmult_assoc, AQ; ring).
    setoid_replace (pow10 (9 * (lnz - fu a - (rnz - fu b) + g)) * (B * pow10 (9 * rnz)))%Q with (B * pow10 (9 * (lnz + g)) * s)%Q.
    + apply Qmult_lt_r; [exact Ps|exact QL].
    + unfold s. rewrite <- Qmult_assoc, <- pow10_add. rewrite (Qmult_comm _ (B * _)), <- Qmult_assoc, <- pow10_add. 
      replace (9 * rnz + 9 * (lnz - fu a - (rnz - fu b) + g)) with (9 * (lnz + g) + 9 * (fu b - fu a)) by lia. reflexivity.
Qed.

Lemma truncate_sign (s : bool) q : (0 <= q)%Q -> truncate (if s then - q else q) = if s then - Qfloor q else Qfloor q.
Proof.
  intros H. unfold truncate. destruct s.
  - destruct (Qle_bool 0 (- q)) eqn:E.
    + apply Qle_bool_iff in E. assert (Z0 : (q == 0)%Q) by (apply Qle_antisym; [|exact H]; apply Qopp_le_compat in E; rewrite Qopp_involutive in E; exact E).
      rewrite Z0. reflexivity.
    + rewrite Qopp_involutive. reflexivity.
  - apply Qle_bool_iff in H. rewrite H. reflexivity.
Qed.

Lemma quotient_sign a b : wf a -> wf b ->
  (value a / value b == if xorb (neg a) (neg b) then - Qabs (value a / value b) else Qabs (value a / value b))%Q.
Proof.
  intros Ha Hb. unfold Qdiv. transitivity ((if neg a then - Qabs (value a) else Qabs (value a)) * / (if neg b then - Qabs (value b) else Qabs (value b)))%Q.
  { apply Qmult_comp; [apply value_sign, Ha|]. apply Qinv_comp, value_sign, Hb. }
  assert (E : (Qabs (value a * / value b) == Qabs (value a) * / Qabs (value b))%Q) by (rewrite Qabs_Qmult, Qabs_Qinv; reflexivity).
  assert (I : forall x, (/ (- x) == - / x)%Q) by (intros [[|n|n] d]; reflexivity).
  destruct (neg a), (neg b); cbn [xorb]; rewrite E, ?I; ring.
Qed.

Lemma div_to_value (s : bool) a b d : wf a -> wf b -> magnitude b <> 0 -> wf d -> frac_digits d = 9 * fu d ->
  magnitude d = quotient_units a b (fu d) -> s = xorb (neg a) (neg b) -> neg d = s && negb (magnitude d =? 0) ->
  (value d == truncate_at (value a / value b) (frac_digits d))%Q.
Proof.
  intros Ha Hb Nb Hd Fd Md -> Sd. pose proof (wf_counts d Hd). rewrite Fd. unfold truncate_at.
  rewrite (truncate_comp _ (if xorb (neg a) (neg b) then - (Qabs (value a / value b) * pow10 (9 * fu d)) else Qabs (value a / value b) * pow10 (9 * fu d))%Q).
  2:{ set (x := Qabs (value a / value b)). transitivity ((if xorb (neg a) (neg b) then - x else x) * pow10 (9 * fu d))%Q;
      [apply Qmult_comp; [apply quotient_sign; assumption|reflexivity]|destruct (xorb (neg a) (neg b)); ring]. }
  rewrite truncate_sign by (apply Qmult_le_0_compat; [apply Qabs_nonneg|apply Qlt_le_weak, pow10_pos]).
  rewrite floor_quotient by (auto; lia). rewrite <- Md. rewrite (value_smag d Hd). unfold smag. rewrite Sd.
  destruct (xorb (neg a) (neg b)); cbn [andb].
  - destruct (Z.eqb_spec (magnitude d) 0) as [->|]; cbn [negb]; reflexivity.
  - reflexivity.
Qed.

Lemma Qpow10_lt m n : (pow10 m < pow10 n)%Q -> m < n.
Proof.
  intros H. destruct (Z.lt_ge_cases m n) as [L|L]; [exact L|exfalso]. apply (Qlt_irrefl (pow10 m)). eapply Qlt_le_trans; [exact H|].
  replace m with (n + (m - n)) by lia. rewrite pow10_add. rewrite (pow10_nonneg (m - n)) by lia. pose proof (p10_pos (m - n) ltac:(lia)).
  rewrite <- (Qmult_1_r (pow10 n)) at 1. rewrite !(Qmult_comm (pow10 n)). apply Qmult_le_compat_r; [|apply Qlt_le_weak, pow10_pos].
  change 1%Q with (inject_Z 1). rewrite <- Zle_Qle. lia.
Qed.
Lemma pow10_mono m n : m <= n -> (pow10 m <= pow10 n)%Q.
Proof.
  intros L. replace n with (m + (n - m)) by lia. rewrite pow10_add, (pow10_nonneg (n - m)) by lia. pose proof (p10_pos (n - m) ltac:(lia)).
  rewrite <- (Qmult_1_r (pow10 m)) at 1. rewrite !(Qmult_comm (pow10 m)). apply Qmult_le_compat_r; [|apply Qlt_le_weak, pow10_pos].
  change 1%Q with (inject_Z 1). rewrite <- Zle_Qle. lia.
Qed.

(** The leading digit, and the leading zeroes of the leading unit. *)
Lemma lz_spec x : 1 <= x < base -> 10 ^ (8 - unit_leading_zeroes x) <= x < 10 ^ (9 - unit_leading_zeroes x).
Proof.
  intros H. unfold unit_leading_zeroes, base in *.
  repeat match goal with |- context [if x >=? ?c then _ else _] => destruct (Z.geb_spec x c) end; match goal with |- 10 ^ ?p <= _ < 10 ^ ?q => let p' := eval vm_compute in (10 ^ p) in let q' := eval vm_compute in (10 ^ q) in change (p' <= x < q') end; lia.
Qed.
Lemma leading_unique q p p' : (pow10 p <= q)%Q -> (q < pow10 (p + 1))%Q -> (pow10 p' <= q)%Q -> (q < pow10 (p' + 1))%Q -> p = p'.
Proof.
  intros A B A' B'. pose proof (Qpow10_lt _ _ (Qle_lt_trans _ _ _ A B')). pose proof (Qpow10_lt _ _ (Qle_lt_trans _ _ _ A' B)). lia.
Qed.
Lemma leading_pos d k p : wf d -> 0 <= k -> base ^ k * zn (fd_lsu d) k <= magnitude d < base ^ k * (zn (fd_lsu d) k + 1) -> 1 <= zn (fd_lsu d) k < base ->
  leading_digit d p -> p = 9 * (k - fu d) + 8 - unit_leading_zeroes (zn (fd_lsu d) k).
Proof.
  intros Hd Hk B T (P1 & P2). pose proof (wf_counts d Hd) as CD. pose proof (lz_spec _ T) as LS. pose proof (lz_bound _ (proj1 T)) as LB.
  set (x := zn (fd_lsu d) k) in *. set (z := unit_leading_zeroes x) in *. clearbody z. clearbody x.
  apply (leading_unique (Qabs (value d))); [exact P1|exact P2| |].
  - rewrite (abs_mag10 d Hd). replace (9 * (k - fu d) + 8 - z) with (9 * k + (8 - z) + - (9 * fu d)) by lia. rewrite !pow10_add.
    apply Qmult_le_compat_r; [|apply Qlt_le_weak, pow10_pos]. rewrite pow10_base, pow10_nonneg by lia. rewrite <- inject_Z_mult, <- Zle_Qle.
    eapply Z.le_trans; [|apply B]. apply Z.mul_le_mono_nonneg_l; [apply Z.lt_le_incl, pow_base_pos, Hk|lia].
  - rewrite (abs_mag10 d Hd). replace (9 * (k - fu d) + 8 - z + 1) with (9 * k + (9 - z) + - (9 * fu d)) by lia. rewrite !pow10_add.
    apply Qmult_lt_r; [apply pow10_pos|]. rewrite pow10_base, pow10_nonneg by lia. rewrite <- inject_Z_mult, <- Zlt_Qlt.
    eapply Z.lt_le_trans; [apply B|]. apply Z.mul_le_mono_nonneg_l; [apply Z.lt_le_incl, pow_base_pos, Hk|lia].
Qed.

(** The quotient has no more integral digits than declared if the leading
    digit of the dividend is at least as far up in its unit as that of the divisor. *)
Lemma result_tight a b incr lnz rnz d : wf a -> wf b -> magnitude b <> 0 -> lead2 a b lnz rnz -> div_result a b incr lnz rnz d ->
  forall p q, leading_digit a p -> leading_digit b q -> q mod 9 <= p mod 9 -> tight d.
Proof.
  intros Ha Hb Nb L R p q Lp Lq Hpq. pose proof (exp_bounds a b lnz rnz Ha Hb L) as EB. cbv zeta in EB. destruct EB as [_ E2].
  pose proof (l2_a0 a b lnz rnz L) as A0. pose proof (l2_b0 a b lnz rnz L) as B0.
  pose proof (leading_pos a lnz p Ha ltac:(clear - A0; lia) (l2_at a b lnz rnz L) (l2_ap a b lnz rnz L) Lp) as Ep.
  pose proof (leading_pos b rnz q Hb ltac:(clear - B0; lia) (l2_bt a b lnz rnz L) (l2_bp a b lnz rnz L) Lq) as Eq.
  pose proof (lz_bound _ (proj1 (l2_ap a b lnz rnz L))) as Zl. pose proof (lz_bound _ (proj1 (l2_bp a b lnz rnz L))) as Zr.
  pose proof (ge_tops a b lnz rnz L) as GT. destruct R as [ID W C N P I F1 F2 M]. pose proof (wf_counts d W) as CD.
  unfold qig in ID. unfold exp_of in E2. set (K := qk a b lnz rnz) in *. assert (EK : K = (lnz - fu a) - (rnz - fu b)) by reflexivity. clearbody K.
  set (zl := unit_leading_zeroes (zn (fd_lsu a) lnz)) in *. set (zr := unit_leading_zeroes (zn (fd_lsu b) rnz)) in *.
  assert (LZ : if qge a b lnz rnz then zl <= zr else zr <= zl) by (unfold zl, zr; destruct (qge a b lnz rnz); apply lz_anti; exact GT).
  clearbody zl zr. clear GT.
  assert (LE : zl <= zr) by (clear - Ep Eq Hpq Zl Zr; lia).
  assert (QB : (Qabs (value a / value b) < pow10 (int_digits d))%Q).
  { rewrite ID. destruct (qge a b lnz rnz); cbn [b2z] in *.
    - eapply Qlt_le_trans with (pow10 (p + 1 - q)); [|apply pow10_mono; clear - Ep Eq EK; lia].
      destruct Lp as [_ Lp]. destruct Lq as [Lq _]. unfold Qdiv. rewrite Qabs_Qmult, Qabs_Qinv.
      pose proof (Qlt_le_trans _ _ _ (pow10_pos q) Lq) as Pb.
      apply (Qmult_lt_r _ _ (Qabs (value b)) Pb). rewrite <- Qmult_assoc, (Qmult_comm (/ _)), Qmult_inv_r, Qmult_1_r by (intros X; rewrite X in Pb; discriminate Pb).
      eapply Qlt_le_trans; [exact Lp|]. replace (p + 1) with (p + 1 - q + q) at 1 by lia. rewrite pow10_add, !(Qmult_comm (pow10 (p + 1 - q))).
      apply Qmult_le_compat_r; [exact Lq|apply Qlt_le_weak, pow10_pos].
    - eapply Qlt_le_trans; [exact E2|]. apply pow10_mono. clear - LE LZ. lia. }
  unfold tight. rewrite M. rewrite <- floor_quotient by (try assumption; clear - CD; lia).
  rewrite Zlt_Qlt. eapply Qle_lt_trans; [apply Qfloor_le|]. rewrite inject_Z_mult, <- pow10_base, <- pow10_nonneg by (clear - CD; lia).
  apply Qmult_lt_r; [apply pow10_pos|exact QB].
Qed.

(** What division by a divisor of up to two significant units returns. *)
Lemma div_to_run_gen m a b res incr rs d : wf a -> wf b -> ~ (value a == 0)%Q -> ~ (value b == 0)%Q -> 0 <= incr -> sane_request a b incr -> long_good Release a b incr ->
  div_to m a b res incr = Ret (rs, d) ->
  exists e, (pow10 (9 * (e - 1)) <= Qabs (value a / value b))%Q /\ (Qabs (value a / value b) < pow10 (9 * e))%Q /\
   ((9 < e /\ rs = Err Overflow /\ d = zero) \/
    (e <= 9 /\ rs = Ok tt /\ wf d /\ clean d /\ nohidden d /\ ~ negzero d /\ (~ (value d == 0)%Q -> neg d = xorb (neg a) (neg b)) /\
     iu d = Z.max 0 e /\ frac_digits d = 9 * fu d /\
     fu d = Z.min 4 (Z.min (9 - iu d) (Z.max (fu a + fu b) (units_for (frac_digits a + frac_digits b + incr)))) /\
     (value d == truncate_at (value a / value b) (frac_digits d))%Q /\
     (forall p q, leading_digit a p -> leading_digit b q -> q mod 9 <= p mod 9 -> tight d))).
Proof.
  intros Ha Hb Na Nb Hi Rm LG H. pose proof (wf_counts a Ha) as CA. pose proof (wf_counts b Hb) as CB.
  assert (HR : div_to Release a b res incr = Ret (rs, d)) by (destruct m; [apply (sim_ret _ _ _ (s_div_to a b res incr)), H|exact H]).
  rewrite value_zero_iff in Na, Nb by assumption. clear H. unfold div_to in HR.
  rewrite as_isize_id in HR by (unfold sane_request in Rm; clear - Rm CA CB Hi; lia).
  rewrite !is_neg_ok in HR by (apply wf_intg; assumption). cbv zeta in HR. apply bind_inv in HR. destruct HR as ([rs0 d0] & E & HR).
  destruct (div_abs_run_gen a b res incr _ Ha Hb Na Nb Hi Rm LG E) as (lnz & rnz & L & C). clear E.
  exists (exp_of a b lnz rnz). pose proof (exp_bounds a b lnz rnz Ha Hb L) as EB. cbv zeta in EB. destruct EB as [E1 E2].
  split; [exact E1|]. split; [exact E2|]. destruct C as [[O E]|(O & d' & E & R)]; injection E as -> ->; cbn [finish_sign] in HR.
  - left. injection HR as <- <-. auto.
  - right. split; [exact O|]. injection HR as <- <-. split; [reflexivity|]. pose proof (result_tight a b incr lnz rnz d' Ha Hb Nb L R) as RT. destruct R as [ID W C N P I F1 F2 M].
    set (s := xorb (neg a) (neg b)) in *.
    set (d := if s then set_neg_and_check_zero d' else d').
    assert (SD : same_digits d' d) by (unfold d; destruct s; [apply check_zero_same, W|repeat split]).
    assert (WD : wf d) by (unfold d; destruct s; [apply check_zero_wf, W|exact W]).
    assert (ND : neg d = s && negb (magnitude d =? 0)).
    { rewrite (same_magnitude _ _ SD). unfold d; destruct s; [rewrite check_zero_neg by assumption; reflexivity|rewrite P; reflexivity]. }
    pose proof SD as (_ & SF & _).
    assert (FD : frac_digits d = 9 * fu d) by (rewrite (same_fu _ _ SD), <- F1; unfold frac_digits; exact SF).
    assert (MD : magnitude d = quotient_units a b (fu d)) by (rewrite (same_magnitude _ _ SD), (same_fu _ _ SD); exact M).
    split; [exact WD|]. split; [eapply same_clean; eassumption|]. split; [eapply same_nohidden; eassumption|].
    split. { intros [N1 N2]. apply value_zero_iff in N2; [|exact WD]. rewrite ND, N2 in N1. destruct s; discriminate. }
    split. { intros V. rewrite ND. replace (magnitude d =? 0) with false; [apply andb_true_r|]. symmetry. apply Z.eqb_neq. intros X. apply V. apply value_zero_iff; assumption. }
    split; [rewrite (same_iu _ _ SD); exact I|]. split; [exact FD|]. split; [rewrite (same_iu _ _ SD), (same_fu _ _ SD); exact F2|].
    split; [apply (div_to_value s); auto|]. intros p q Lp Lq Hpq. apply (same_tight _ _ SD). exact (RT p q Lp Lq Hpq).
Qed.
Lemma div_to_run m a b res incr rs d : wf a -> wf b -> ~ (value a == 0)%Q -> ~ (value b == 0)%Q -> 0 <= incr -> sane_request a b incr -> significant_units 2 b ->
  div_to m a b res incr = Ret (rs, d) ->
  exists e, (pow10 (9 * (e - 1)) <= Qabs (value a / value b))%Q /\ (Qabs (value a / value b) < pow10 (9 * e))%Q /\
   ((9 < e /\ rs = Err Overflow /\ d = zero) \/
    (e <= 9 /\ rs = Ok tt /\ wf d /\ clean d /\ nohidden d /\ ~ negzero d /\ (~ (value d == 0)%Q -> neg d = xorb (neg a) (neg b)) /\
     iu d = Z.max 0 e /\ frac_digits d = 9 * fu d /\
     fu d = Z.min 4 (Z.min (9 - iu d) (Z.max (fu a + fu b) (units_for (frac_digits a + frac_digits b + incr)))) /\
     (value d == truncate_at (value a / value b) (frac_digits d))%Q /\
     (forall p q, leading_digit a p -> leading_digit b q -> q mod 9 <= p mod 9 -> tight d))).
Proof. intros Ha Hb Na Nb Hi Rm S2 H. apply (div_to_run_gen m a b res incr); try assumption. apply long_good_two; try assumption. discriminate. Qed.

Lemma div_to_zero m a b res incr : wf a -> wf b -> (value a == 0)%Q -> ~ (value b == 0)%Q -> div_to m a b res incr = Ret (Ok tt, zero).
Proof.
  intros Ha Hb Na Nb. rewrite value_zero_iff in Na, Nb by assumption. unfold div_to. rewrite div_zero_dividend by assumption. mret. cbn [finish_sign].
  destruct (xorb (is_neg a) (is_neg b)); reflexivity.
Qed.

(** The leading digit of a non-zero decimal. *)
Lemma leading_is d k : wf d -> 0 <= k -> base ^ k * zn (fd_lsu d) k <= magnitude d < base ^ k * (zn (fd_lsu d) k + 1) -> 1 <= zn (fd_lsu d) k < base ->
  leading_digit d (9 * (k - fu d) + 8 - unit_leading_zeroes (zn (fd_lsu d) k)).
Proof.
  intros Hd Hk B T. pose proof (wf_counts d Hd) as CD. pose proof (lz_spec _ T) as LS. pose proof (lz_bound _ (proj1 T)) as LB.
  set (x := zn (fd_lsu d) k) in *. set (z := unit_leading_zeroes x) in *. clearbody z. clearbody x. split.
  - rewrite (abs_mag10 d Hd). replace (9 * (k - fu d) + 8 - z) with (9 * k + (8 - z) + - (9 * fu d)) by lia. rewrite !pow10_add.
    apply Qmult_le_compat_r; [|apply Qlt_le_weak, pow10_pos]. rewrite pow10_base, pow10_nonneg by lia. rewrite <- inject_Z_mult, <- Zle_Qle.
    eapply Z.le_trans; [|apply B]. apply Z.mul_le_mono_nonneg_l; [apply Z.lt_le_incl, pow_base_pos, Hk|lia].
  - rewrite (abs_mag10 d Hd). replace (9 * (k - fu d) + 8 - z + 1) with (9 * k + (9 - z) + - (9 * fu d)) by lia. rewrite !pow10_add.
    apply Qmult_lt_r; [apply pow10_pos|]. rewrite pow10_base, pow10_nonneg by lia. rewrite <- inject_Z_mult, <- Zlt_Qlt.
    eapply Z.lt_le_trans; [apply B|]. apply Z.mul_le_mono_nonneg_l; [apply Z.lt_le_incl, pow_base_pos, Hk|lia].
Qed.

(** Overflow, for every divisor. *)
Lemma div_overflow m a b res incr : wf a -> wf b -> ~ (value b == 0)%Q -> 0 <= incr -> div_room a b incr ->
  (Qabs (value a / value b) < pow10 81 -> forall e d, div_to m a b res incr <> Ret (Err e, d))%Q /\
  (pow10 81 <= Qabs (value a / value b) -> div_to m a b res incr = Ret (Err Overflow, zero))%Q.
Proof.
  intros Ha Hb Nb Hi Rm. pose proof (wf_counts a Ha) as CA. pose proof (wf_counts b Hb) as CB.
  destruct (Qeq_dec (value a) 0) as [V|V].
  { rewrite div_to_zero by assumption. split; [discriminate|]. intros H. exfalso. rewrite V in H. unfold Qdiv in H. rewrite Qmult_0_l in H. change (Qabs 0) with 0%Q in H.
    exact (Qlt_not_le _ _ (pow10_pos 81) H). }
  rewrite value_zero_iff in V, Nb by assumption. unfold div_to.
  rewrite as_isize_id by (destruct Rm as (_ & _ & _ & R4); clear - R4 CA CB Hi; lia).
  destruct (div_abs_overflow m a b res incr Ha Hb V Nb Hi Rm) as (lnz & rnz & L & O1 & O2).
  destruct (exp_bounds a b lnz rnz Ha Hb L) as [E1 E2]. set (e := exp_of a b lnz rnz) in *. clearbody e. set (q := Qabs (value a / value b)) in *. clearbody q. split.
  - intros H. assert (e <= 9). { pose proof (Qle_lt_trans _ _ _ E1 H) as X. apply Qpow10_lt in X. lia. }
    intros er d X. apply bind_inv in X. destruct X as ([rs d'] & E & X). destruct rs as [u|er']; [discriminate|]. exact (O2 H0 _ _ E).
  - intros H. assert (9 < e). { pose proof (Qle_lt_trans _ _ _ H E2) as X. apply Qpow10_lt in X. lia. }
    rewrite (O1 H0). reflexivity.
Qed.

(** Ten significant digits never span more than two units. *)
Lemma ten_digits (b : fd) x k : 0 < x < 10 ^ 10 -> 0 <= k -> magnitude b = x * 10 ^ k -> significant_units 2 b.
Proof.
  intros Hx Hk E. exists (x * 10 ^ (k mod 9)), (k / 9). split; [|split].
  - assert (0 <= k mod 9 <= 8) by lia. assert (1 <= 10 ^ (k mod 9) <= 10 ^ 8).
    { split; [change 1 with (10 ^ 0)|]; apply Z.pow_le_mono_r; lia. }
    set (t := 10 ^ (k mod 9)) in *. clearbody t. change (base ^ 2) with (10 ^ 10 * 10 ^ 8). nia.
  - lia.
  - rewrite E. rewrite <- Z.mul_assoc. f_equal. change base with (10 ^ 9). rewrite <- Z.pow_mul_r by lia. rewrite <- Z.pow_add_r by lia. f_equal. lia.
Qed.
