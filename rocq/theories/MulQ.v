(** * Multiplication as an operation on rational numbers. *)
From Coq Require Import ZArith List Bool Lia QArith Qabs Lqa.
From Coq Require Import ZifyBool ZifyNat.
Import ListNotations.
From Verif Require Import Rust Tables Model_Base Model_Cmp Model_Round Model_Arith Spec Lib Cmp AddSub Sign AddTo Witness AddSubQ Mul MulAbs.
Open Scope Z_scope.
Ltac Zify.zify_post_hook ::= Z.div_mod_to_equations.

Lemma mru_spec a b : mru a b = product_int_units a b. Proof. reflexivity. Qed.
Lemma mrf_spec a b : mrf a b = product_frac_units a b. Proof. reflexivity. Qed.
Lemma msh_spec a b : msh a b = product_lost_units a b. Proof. reflexivity. Qed.

(** The number as a quotient of integers. *)
Lemma abs_mag d : wf d -> (Qabs (value d) * inject_Z (base ^ fu d) == inject_Z (magnitude d))%Q.
Proof.
  intros H. pose proof (magnitude_nonneg d H). pose proof (wf_counts d H). pose proof (pow_base_pos (fu d) ltac:(lia)).
  unfold value, Qabs, Qmult, Qeq, inject_Z. cbn [Qnum Qden]. rewrite Pos.mul_1_r, Z2Pos.id by lia.
  destruct (neg d); rewrite ?Z.abs_opp, Z.abs_eq by lia; ring.
Qed.
Lemma value_sign d : wf d -> (value d == if neg d then - Qabs (value d) else Qabs (value d))%Q.
Proof.
  intros H. pose proof (magnitude_nonneg d H). unfold value, Qabs, Qopp, Qeq.
  destruct (neg d); cbn [Qnum Qden]; rewrite ?Z.abs_opp, Z.abs_eq by lia; ring.
Qed.
Lemma inject_pos z : 0 < z -> (0 < inject_Z z)%Q.
Proof. intros H. change (inject_Z 0 < inject_Z z)%Q. rewrite <- Zlt_Qlt. exact H. Qed.

(** (|a||b| - |d|) * base^kept * base^lost is the integer error. *)
Lemma error_value a b d : wf a -> wf b -> wf d -> mru a b <= 9 -> fu d = mrf a b ->
  ((Qabs (value a) * Qabs (value b) - Qabs (value d)) * inject_Z (base ^ mrf a b) * inject_Z (base ^ msh a b)
   == inject_Z (mul_error a b (magnitude d)))%Q.
Proof.
  intros Ha Hb Hd Hr Hf. pose proof (mul_shape a b Ha Hb Hr) as (S1 & S2 & S3 & S4 & _).
  pose proof (wf_counts a Ha). pose proof (wf_counts b Hb).
  unfold mul_error. unfold Z.sub. rewrite inject_Z_plus, inject_Z_opp, !inject_Z_mult.
  rewrite <- (abs_mag a Ha), <- (abs_mag b Hb), <- (abs_mag d Hd), Hf.
  assert (E : (inject_Z (base ^ mrf a b) * inject_Z (base ^ msh a b) == inject_Z (base ^ fu a) * inject_Z (base ^ fu b))%Q).
  { rewrite <- !inject_Z_mult, <- !base_pow_split by lia. unfold msh. replace (mrf a b + (fu a + fu b - mrf a b)) with (fu a + fu b) by lia. reflexivity. }
  set (x := Qabs (value a)). set (y := Qabs (value b)). set (z := Qabs (value d)).
  set (P := inject_Z (base ^ mrf a b)) in *. set (S := inject_Z (base ^ msh a b)) in *.
  set (Fa := inject_Z (base ^ fu a)) in *. set (Fb := inject_Z (base ^ fu b)) in *.
  transitivity (x * y * (P * S) - z * P * S)%Q; [ring|]. rewrite E. ring.
Qed.

(** What multiplication of non-zero numbers returns. *)
Lemma mul_to_run m a b res rs d : wf a -> wf b -> clean a -> clean b -> tight a -> tight b ->
  is_zero a = false -> is_zero b = false -> mul_to m a b res = Ret (rs, d) ->
  (9 < mru a b /\ rs = Err Overflow /\ d = set_zero res) \/
  (mru a b <= 9 /\ rs = Ok tt /\ exists d0, mul_result a b d0 /\ same_digits d0 d /\ wf d /\ clean d /\ tight d /\
     neg d = xorb (neg a) (neg b) && negb (magnitude d =? 0)).
Proof.
  intros Ha Hb Ca Cb Ta Tb Za Zb H. unfold mul_to in H. rewrite Za, Zb in H. cbn [orb] in H.
  rewrite !is_neg_ok in H by (apply wf_intg; assumption).
  apply bind_inv in H. destruct H as (o & E & H).
  destruct (mul_abs_run m a b res Ha Hb Ca Cb Ta Tb Za Zb) as [R1 R2].
  destruct (R1 (R2 ltac:(eexists; exact E))) as [[L E']|(L & d0 & E' & R)]; rewrite E in E'; injection E' as ->; cbn [finish_sign] in H.
  - left. injection H as <- <-. auto.
  - right. split; [exact L|]. injection H as <- <-. split; [reflexivity|]. exists d0. split; [exact R|].
    destruct R as (W & C & T & Hn & _). destruct (xorb (neg a) (neg b)).
    + pose proof (check_zero_same d0 (wf_intg d0 W)) as S. split; [exact S|]. split; [apply check_zero_wf, W|].
      split; [eapply same_clean; eassumption|]. split; [eapply same_tight; eassumption|].
      rewrite check_zero_neg by assumption. rewrite (same_magnitude _ _ S). reflexivity.
    + split; [repeat split|]. auto.
Qed.

Lemma set_zero_facts r : wf (set_zero r) /\ clean (set_zero r) /\ tight (set_zero r) /\ nohidden (set_zero r) /\
  (value (set_zero r) == 0)%Q /\ neg (set_zero r) = false.
Proof. repeat split; solve [wfd | cleand | tightd | nohiddend | vm_compute; reflexivity]. Qed.

Lemma zero_product a b : (value a == 0)%Q \/ (value b == 0)%Q -> (value a * value b == 0)%Q.
Proof. intros [->| ->]; ring. Qed.

Lemma abs_product a b : (Qabs (value a * value b) == Qabs (value a) * Qabs (value b))%Q.
Proof. apply Qabs_Qmult. Qed.

Lemma Qlt_scaled x z S : 0 < S -> (x * inject_Z S < inject_Z (z * S))%Q -> (x < inject_Z z)%Q.
Proof.
  intros HS H. rewrite inject_Z_mult in H. apply Qmult_lt_r in H; [exact H|]. apply inject_pos, HS.
Qed.

(** The general statement: the magnitude of the product, truncated. *)
Lemma mul_truncates m a b res rs d : wf a -> wf b -> clean a -> clean b -> tight a -> tight b ->
  mul_to m a b res = Ret (rs, d) -> rs = Ok tt ->
  wf d /\ clean d /\ tight d /\ ~ negzero d /\ (nohidden a -> nohidden b -> nohidden d) /\
  (nohidden a -> nohidden b -> frac_digits a + frac_digits b <= 9 * product_frac_units a b -> (value d == value a * value b)%Q) /\
  (~ (value a == 0)%Q -> ~ (value b == 0)%Q ->
     int_digits d = 9 * product_int_units a b /\ frac_digits d = Z.min (frac_digits a + frac_digits b) (9 * product_frac_units a b)) /\
  (~ (value d == 0)%Q -> neg d = xorb (neg a) (neg b)) /\
  (let lost := product_lost_units a b in
   let err := ((Qabs (value a * value b) - Qabs (value d)) * inject_Z (base ^ product_frac_units a b))%Q in
   (0 <= err)%Q /\ (lost = 0 -> (err == 0)%Q) /\ (lost = 1 -> (err < 1)%Q) /\
   (0 < lost -> (err < inject_Z (2 * Z.min 9 lost))%Q)).
Proof.
  intros Ha Hb Ca Cb Ta Tb H ->.
  destruct (is_zero a || is_zero b) eqn:Ez.
  { unfold mul_to in H. rewrite Ez in H. injection H as <-.
    assert (ZZ : (value a == 0)%Q \/ (value b == 0)%Q).
    { apply orb_true_iff in Ez. rewrite !is_zero_iff in Ez by assumption. exact Ez. }
    destruct (set_zero_facts res) as (F1 & F2 & F3 & F4 & F5 & F6).
    split; [exact F1|]. split; [exact F2|]. split; [exact F3|].
    split; [intros [N _]; congruence|]. split; [auto|].
    split; [intros; rewrite (zero_product a b ZZ), F5; reflexivity|]. split; [intros; exfalso; tauto|]. split; [tauto|]. cbv zeta.
    assert (EE : ((Qabs (value a * value b) - Qabs (value (set_zero res))) * inject_Z (base ^ product_frac_units a b) == 0)%Q).
    { rewrite (zero_product a b ZZ), F5. change (Qabs 0) with 0%Q. ring. }
    rewrite EE. split; [apply Qle_refl|]. split; [intros; reflexivity|]. split; [intros; reflexivity|].
    intros L. apply inject_pos. lia. }
  apply orb_false_iff in Ez. destruct Ez as [Za Zb].
  pose proof (nonzero_units b Hb Cb Zb) as Nb. pose proof (wf_counts b Hb) as WB.
  destruct (mul_to_run m a b res _ d Ha Hb Ca Cb Ta Tb Za Zb H) as [(_ & ? & _)|(L & _ & d0 & R & S & W & C & T & Hn)]; [discriminate|].
  pose proof (mul_nohidden a b d0 Ha Hb L R) as NH.
  pose proof (mul_error_zero a b d0 Ha Hb L R) as EZ.
  pose proof (mul_shape a b Ha Hb L) as (S1 & S2 & S3 & S4 & _).
  destruct R as (W0 & C0 & T0 & Hn0 & Ii & Iu & Fu & Fr & E0 & E1 & E2 & E3).
  rewrite <- (same_magnitude _ _ S) in *. rewrite <- (same_fu _ _ S) in Fu.
  split; [exact W|]. split; [exact C|]. split; [exact T|].
  split. { intros [N V]. rewrite Hn in N. apply andb_true_iff in N. destruct N as [_ N]. apply value_zero_iff in V; [|exact W]. rewrite V in N. discriminate. }
  split. { intros. eapply same_nohidden; [exact S|auto]. }
  pose proof (error_value a b d Ha Hb W L Fu) as EV.
  pose proof (pow_base_pos (msh a b) S4) as Ps. pose proof (inject_pos _ Ps) as Pq.
  pose proof (inject_pos _ (pow_base_pos (mrf a b) ltac:(lia))) as Pf.
  split.
  { intros Na Nb' G. destruct (EZ Na Nb' G) as [E _]. rewrite E in EV.
    assert (EQ : (Qabs (value d) == Qabs (value a) * Qabs (value b))%Q).
    { apply Qmult_integral in EV. destruct EV as [EV|EV]; [|rewrite EV in Pq; discriminate Pq].
      apply Qmult_integral in EV. destruct EV as [EV|EV]; [|rewrite EV in Pf; discriminate Pf].
      rewrite <- (Qplus_0_r (Qabs (value d))), <- EV. ring. }
    transitivity (if neg d then - Qabs (value d) else Qabs (value d))%Q; [apply value_sign, W|].
    transitivity ((if neg a then - Qabs (value a) else Qabs (value a)) * (if neg b then - Qabs (value b) else Qabs (value b)))%Q;
      [|symmetry; apply Qmult_comp; apply value_sign; assumption].
    rewrite Hn.
    destruct (Z.eqb_spec (magnitude d) 0) as [M|M].
    - assert (V : (value d == 0)%Q) by (apply value_zero_iff; assumption).
      assert (Q0 : (Qabs (value a) * Qabs (value b) == 0)%Q) by (rewrite <- EQ, V; reflexivity).
      rewrite andb_false_r, EQ. set (x := Qabs (value a)) in *. set (y := Qabs (value b)) in *.
      destruct (neg a), (neg b); try ring.
      + transitivity (- (x * y))%Q; [rewrite Q0; reflexivity|ring].
      + transitivity (- (x * y))%Q; [rewrite Q0; reflexivity|ring].
    - rewrite andb_true_r. destruct (neg a), (neg b); cbn [xorb]; rewrite EQ; ring. }
  split. { intros _ _. destruct S as (SI & SF & _). split; [rewrite SI; exact Ii|]. unfold frac_digits at 1. rewrite SF. exact Fr. }
  split. { intros V. rewrite Hn. replace (magnitude d =? 0) with false; [apply andb_true_r|].
           symmetry. apply Z.eqb_neq. intros N. apply V. apply value_zero_iff; assumption. }
  rewrite <- abs_product in EV.
  rewrite <- mrf_spec, <- msh_spec. cbv zeta. remember ((Qabs (value a * value b) - Qabs (value d)) * inject_Z (base ^ mrf a b))%Q as err eqn:Eerr. clear Eerr.
  remember (mul_error a b (magnitude d)) as E.
  split. { apply Qmult_lt_0_le_reg_r with (inject_Z (base ^ msh a b)); [exact Pq|]. rewrite EV, Qmult_0_l. change 0%Q with (inject_Z 0). rewrite <- Zle_Qle. exact E0. }
  split. { intros Hs. specialize (E1 Hs). rewrite E1, Hs in EV. rewrite Z.pow_0_r in EV. change (inject_Z 1) with 1%Q in EV. rewrite Qmult_1_r in EV. exact EV. }
  split. { intros Hs. specialize (E2 Hs). change 1%Q with (inject_Z 1). apply Qlt_scaled with (base ^ msh a b); [exact Ps|]. rewrite EV, <- Zlt_Qlt, Hs, Z.pow_1_r. clear - E2. lia. }
  intros Hs. apply Qlt_scaled with (base ^ msh a b); [exact Ps|]. rewrite EV, <- Zlt_Qlt.
  set (P := base ^ msh a b) in *. set (n := Z.min (iu b + fu b) (msh a b)) in *. assert (N1 : 1 <= n <= Z.min 9 (msh a b)) by (subst n; lia).
  clearbody P n. clear - E3 N1 Ps. nia.
Qed.

(** The exact case. *)
Lemma fits_lost a b : wf a -> wf b -> product_fits a b ->
  product_int_units a b <= 9 /\ product_frac_units a b = units_for (frac_digits a + frac_digits b) /\ 0 <= product_lost_units a b <= 1 /\
  int_digits a + int_digits b <= 81 /\ frac_digits a + frac_digits b <= 36 /\
  Z.min (frac_digits a + frac_digits b) (9 * product_frac_units a b) = frac_digits a + frac_digits b.
Proof.
  intros Ha Hb [F4 F9]. pose proof (wf_counts a Ha) as Ca. pose proof (wf_counts b Hb) as Cb.
  pose proof (units_for_add (int_digits a) (int_digits b) ltac:(lia) ltac:(lia)) as U1.
  pose proof (units_for_add (frac_digits a) (frac_digits b) ltac:(lia) ltac:(lia)) as U2.
  fold (fu a) (fu b) in U2.
  assert (G : 0 <= units_for (frac_digits a + frac_digits b)) by (unfold units_for; lia).
  assert (E : product_frac_units a b = units_for (frac_digits a + frac_digits b)) by (unfold product_frac_units, product_int_units; lia).
  unfold product_lost_units. rewrite E. repeat split; try (unfold product_int_units; lia); unfold units_for in *; lia.
Qed.

Lemma mul_exact m a b res rs d : wf a -> wf b -> clean a -> clean b -> tight a -> tight b -> nohidden a -> nohidden b ->
  product_fits a b -> mul_to m a b res = Ret (rs, d) ->
  rs = Ok tt /\ wf d /\ clean d /\ tight d /\ nohidden d /\ ~ negzero d /\ (value d == value a * value b)%Q /\
  (~ (value a == 0)%Q -> ~ (value b == 0)%Q -> frac_digits d = frac_digits a + frac_digits b).
Proof.
  intros Ha Hb Ca Cb Ta Tb Na Nb F H.
  destruct (fits_lost a b Ha Hb F) as (U9 & EF & HL & _ & _ & EM).
  assert (Hrs : rs = Ok tt).
  { unfold mul_to in H. destruct (is_zero a || is_zero b) eqn:Ez; [congruence|].
    apply orb_false_iff in Ez. destruct Ez as [Za Zb].
    assert (H' : mul_to m a b res = Ret (rs, d)) by (unfold mul_to; rewrite Za, Zb; exact H).
    destruct (mul_to_run m a b res _ d Ha Hb Ca Cb Ta Tb Za Zb H') as [(? & _)|(_ & ? & _)]; [rewrite mru_spec in *; lia|assumption]. }
  destruct (mul_truncates m a b res rs d Ha Hb Ca Cb Ta Tb H Hrs) as (W & C & T & NZ & NH & EX & Fr & _).
  specialize (NH Na Nb).
  split; [exact Hrs|]. split; [exact W|]. split; [exact C|]. split; [exact T|]. split; [exact NH|]. split; [exact NZ|].
  split; [apply EX; auto; rewrite EF; clear; unfold units_for; lia|intros Va Vb; destruct (Fr Va Vb) as [_ ->]; exact EM].
Qed.

(** Where it returns. *)
Lemma mul_returns m a b res : wf a -> wf b -> clean a -> clean b -> tight a -> tight b ->
  ((exists o, mul_to m a b res = Ret o) <->
   (value a == 0)%Q \/ (value b == 0)%Q \/
   (int_digits a + int_digits b <= 119 /\ frac_digits a + frac_digits b <= 119 /\
    (81 < int_digits a + int_digits b \/ product_lost_units a b < iu a + fu a \/
     (m = Release /\ product_lost_units a b = iu a + fu a)))).
Proof.
  intros Ha Hb Ca Cb Ta Tb. pose proof (wf_counts a Ha) as WA. pose proof (wf_counts b Hb) as WB.
  rewrite <- !is_zero_iff by assumption. unfold mul_to.
  destruct (is_zero a) eqn:Za; cbn [orb]. { split; [auto|]. intros _. eexists; reflexivity. }
  destruct (is_zero b) eqn:Zb; cbn [orb]. { split; [auto|]. intros _. eexists; reflexivity. }
  fold (@returns (result unit * fd) (o <- mul_abs m a b res ;; finish_sign o (xorb (is_neg a) (is_neg b)))).
  cbv zeta. change (exists o, (o0 <- mul_abs m a b res ;; finish_sign o0 (xorb (is_neg a) (is_neg b))) = Ret o) with
    (returns (o0 <- mul_abs m a b res ;; finish_sign o0 (xorb (is_neg a) (is_neg b)))).
  rewrite returns_bind by (intros; apply finish_sign_ret).
  destruct (mul_abs_run m a b res Ha Hb Ca Cb Ta Tb Za Zb) as [R1 R2].
  assert (E81 : 81 < int_digits a + int_digits b <-> 9 < mru a b) by (unfold mru, units_for; lia).
  rewrite E81. change (product_lost_units a b) with (msh a b).
  split.
  - intros R. right; right. exact (R2 R).
  - intros [?|[?|F]]; try discriminate. destruct (R1 F) as [[_ E]|(_ & d & E & _)]; eexists; exact E.
Qed.

Lemma mul_overflow m a b res rs d : wf a -> wf b -> clean a -> clean b -> tight a -> tight b ->
  mul_to m a b res = Ret (rs, d) ->
  (rs = Ok tt \/ rs = Err Overflow) /\
  (rs = Err Overflow <-> ~ (value a == 0)%Q /\ ~ (value b == 0)%Q /\ 81 < int_digits a + int_digits b) /\
  (rs = Err Overflow -> d = zero).
Proof.
  intros Ha Hb Ca Cb Ta Tb H. pose proof (wf_counts a Ha) as WA. pose proof (wf_counts b Hb) as WB.
  rewrite <- !is_zero_iff by assumption.
  assert (E81 : 81 < int_digits a + int_digits b <-> 9 < mru a b) by (unfold mru, units_for; lia).
  destruct (is_zero a) eqn:Za.
  { unfold mul_to in H. rewrite Za in H. injection H as <- <-. split; [auto|]. split; [split; [discriminate|tauto]|discriminate]. }
  destruct (is_zero b) eqn:Zb.
  { unfold mul_to in H. rewrite Za, Zb in H. injection H as <- <-. split; [auto|]. split; [split; [discriminate|tauto]|discriminate]. }
  destruct (mul_to_run m a b res rs d Ha Hb Ca Cb Ta Tb Za Zb H) as [(L & -> & ->)|(L & -> & _)].
  - split; [auto|]. split; [|reflexivity]. split; [|reflexivity]. intros _. repeat split; try discriminate. apply E81, L.
  - split; [auto|]. split; [split; [discriminate|]|discriminate]. intros (_ & _ & G). apply E81 in G. lia.
Qed.

(** Release builds, at most 36 fractional digits: there is always room. *)
Lemma lost_room a b : wf a -> wf b -> frac_digits b <= 36 -> int_digits a + int_digits b <= 81 ->
  product_lost_units a b <= iu a + fu a.
Proof.
  intros Ha Hb Fb I. pose proof (wf_counts a Ha) as Ca. pose proof (wf_counts b Hb) as Cb.
  pose proof (units_for_add (int_digits a) (int_digits b) ltac:(lia) ltac:(lia)) as U1.
  fold (iu a) (iu b) in U1.
  assert (U2 : fu b <= units_for (frac_digits a + frac_digits b)) by (unfold fu, units_for; lia).
  assert (U3 : fu b <= 4) by (unfold fu, units_for; lia).
  unfold product_lost_units, product_frac_units, product_int_units. lia.
Qed.
