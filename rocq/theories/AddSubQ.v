(** * Addition and subtraction as operations on rational numbers. *)
From Coq Require Import ZArith List Bool Lia QArith Qabs Lqa.
From Coq Require Import ZifyBool ZifyNat.
Import ListNotations.
From Verif Require Import Rust Tables Model_Base Model_Cmp Model_Round Model_Arith Spec Lib Cmp AddSub Sign AddTo Witness.
Open Scope Z_scope.
Ltac Zify.zify_post_hook ::= Z.div_mod_to_equations.

Definition P9 : positive := Z.to_pos (base ^ 9).

Lemma Qmake_plus x y : (x + y # P9 == (x # P9) + (y # P9))%Q.
Proof. unfold Qeq, Qplus. cbn [Qnum Qden]. rewrite Pos2Z.inj_mul. ring. Qed.
Lemma Qmake_minus x y : (x - y # P9 == (x # P9) - (y # P9))%Q.
Proof. unfold Qeq, Qminus, Qplus, Qopp. cbn [Qnum Qden]. rewrite Pos2Z.inj_mul. ring. Qed.

Lemma value_plus a b d : wf a -> wf b -> wf d -> num d = num a + num b -> (value d == value a + value b)%Q.
Proof. intros Ha Hb Hd E. rewrite !value_num by assumption. rewrite E. apply Qmake_plus. Qed.
Lemma value_minus a b d : wf a -> wf b -> wf d -> num d = num a - num b -> (value d == value a - value b)%Q.
Proof. intros Ha Hb Hd E. rewrite !value_num by assumption. rewrite E. apply Qmake_minus. Qed.

Lemma is_zero_of_value d : wf d -> clean d -> (is_zero d = true <-> (value d == 0)%Q).
Proof. exact (is_zero_iff d). Qed.
Lemma nonzero_is_zero d : wf d -> ~ (value d == 0)%Q -> is_zero d = false.
Proof.
  intros H Hn. destruct (is_zero d) eqn:E; [|reflexivity]. exfalso. apply Hn.
  apply num_zero_value; [assumption|]. apply is_zero_num, E.
Qed.

Lemma add_exact m a b res rs d : wf a -> wf b -> add_to m a b res = Ret (rs, d) ->
  rs = Ok tt /\ wf d /\ (value d == value a + value b)%Q /\
  (~ (value a == 0)%Q -> ~ (value b == 0)%Q -> frac_digits d = Z.max (frac_digits a) (frac_digits b)).
Proof.
  intros Ha Hb H. apply add_to_ret in H; auto. destruct H as (E & W & N & _ & _ & _ & _ & F).
  split; [exact E|]. split; [exact W|]. split; [apply value_plus; assumption|].
  intros Za Zb. apply F; apply nonzero_is_zero; assumption.
Qed.
Lemma sub_exact m a b res rs d : wf a -> wf b -> sub_to m a b res = Ret (rs, d) ->
  rs = Ok tt /\ wf d /\ (value d == value a - value b)%Q /\
  (~ (value a == 0)%Q -> ~ (value b == 0)%Q -> frac_digits d = Z.max (frac_digits a) (frac_digits b)).
Proof.
  intros Ha Hb H. apply sub_to_ret in H; auto. destruct H as (E & W & N & _ & _ & _ & _ & F).
  split; [exact E|]. split; [exact W|]. split; [apply value_minus; assumption|].
  intros Za Zb. apply F; apply nonzero_is_zero; assumption.
Qed.

(** Magnitudes as rationals. *)
Lemma Qabs_value d : wf d -> (Qabs (value d) == amag d # P9)%Q.
Proof.
  intros H. rewrite (value_num d H). pose proof (amag_nonneg d H).
  unfold Qabs, Qeq. cbn [Qnum Qden]. unfold P9. f_equal. unfold num. destruct (neg d); lia.
Qed.
Lemma Qabs_sum_lt a b n : wf a -> wf b -> 0 <= n ->
  ((Qabs (value a) + Qabs (value b) < inject_Z (base ^ n))%Q <-> amag a + amag b < base ^ (9 + n)).
Proof.
  intros Ha Hb Hn. rewrite !Qabs_value by assumption. rewrite <- Qmake_plus.
  unfold Qlt, inject_Z. cbn [Qnum Qden]. unfold P9. rewrite Z2Pos.id by reflexivity.
  rewrite (base_pow_split 9 n) by lia. rewrite Z.mul_1_r, (Z.mul_comm (base ^ n)). tauto.
Qed.

Lemma add_returns m a b res : wf a -> wf b -> clean a -> clean b ->
  let n := Z.max (iu a) (iu b) + Z.max (fu a) (fu b) in
  ((exists o, add_to m a b res = Ret o) <->
   (value a == 0)%Q \/ (value b == 0)%Q \/
   (n <= 8 /\ (neg a <> neg b \/ n <= 7 \/
               (Qabs (value a) + Qabs (value b) < inject_Z (base ^ Z.max (iu a) (iu b)))%Q))).
Proof.
  intros Ha Hb Ca Cb n. change (exists o, add_to m a b res = Ret o) with (returns (add_to m a b res)).
  rewrite add_to_dom by assumption. unfold add_domain, sum_fits, units_needed. fold n.
  rewrite !is_zero_iff by assumption.
  rewrite Qabs_sum_lt by (auto; pose proof (wf_counts a Ha); pose proof (wf_counts b Hb); lia).
  destruct (Z.eq_dec n 8) as [E|E].
  - intuition lia.
  - assert (n <= 7 \/ 8 < n) as [Hn|Hn] by lia; [|intuition lia].
    split.
    + intros [?|[?|H]]; auto. right; right. split; [lia|auto].
    + intros [?|[?|H]]; auto.
Qed.
Lemma sub_returns m a b res : wf a -> wf b -> clean a -> clean b ->
  let n := Z.max (iu a) (iu b) + Z.max (fu a) (fu b) in
  ((exists o, sub_to m a b res = Ret o) <->
   (value a == 0)%Q \/ (value b == 0)%Q \/
   (n <= 8 /\ (neg a = neg b \/ n <= 7 \/
               (Qabs (value a) + Qabs (value b) < inject_Z (base ^ Z.max (iu a) (iu b)))%Q))).
Proof.
  intros Ha Hb Ca Cb n. change (exists o, sub_to m a b res = Ret o) with (returns (sub_to m a b res)).
  rewrite sub_to_dom by assumption. unfold sub_domain, sum_fits, units_needed. fold n.
  rewrite !is_zero_iff by assumption.
  rewrite Qabs_sum_lt by (auto; pose proof (wf_counts a Ha); pose proof (wf_counts b Hb); lia).
  destruct (Z.eq_dec n 8) as [E|E].
  - intuition lia.
  - assert (n <= 7 \/ 8 < n) as [Hn|Hn] by lia; [|intuition lia].
    split.
    + intros [?|[?|H]]; auto. right; right. split; [lia|auto].
    + intros [?|[?|H]]; auto.
Qed.

(** The four shape predicates are kept. *)
Lemma add_keeps m a b res rs d : wf a -> wf b -> add_to m a b res = Ret (rs, d) ->
  (clean a -> clean b -> clean d) /\ (tight a -> tight b -> tight d) /\ (nohidden a -> nohidden b -> nohidden d).
Proof. intros Ha Hb H. apply add_to_ret in H; auto. destruct H as (_ & _ & _ & C & T & N & _). auto. Qed.
Lemma sub_keeps m a b res rs d : wf a -> wf b -> sub_to m a b res = Ret (rs, d) ->
  (clean a -> clean b -> clean d) /\ (tight a -> tight b -> tight d) /\ (nohidden a -> nohidden b -> nohidden d).
Proof. intros Ha Hb H. apply sub_to_ret in H; auto. destruct H as (_ & _ & _ & C & T & N & _). auto. Qed.

Lemma add_no_negzero m a b res rs d : wf a -> wf b -> clean a -> clean b ->
  ~ negzero a -> ~ negzero b -> add_to m a b res = Ret (rs, d) -> ~ negzero d.
Proof.
  intros Ha Hb Ca Cb Na Nb H. apply add_to_ret in H; auto. destruct H as (_ & W & _ & _ & _ & _ & Z & _).
  rewrite negzero_iff in * by assumption. auto.
Qed.
Lemma sub_no_negzero m a b res rs d : wf a -> wf b -> clean a -> clean b ->
  ~ negzero a -> ~ negzero b -> sub_to m a b res = Ret (rs, d) -> ~ negzero d.
Proof.
  intros Ha Hb Ca Cb Na Nb H. apply sub_to_ret in H; auto. destruct H as (_ & W & _ & _ & _ & _ & Z & _).
  rewrite negzero_iff in * by assumption. auto.
Qed.

(** Equal numbers that are not negative zeroes compare equal. *)
Lemma eq_of_value m a b : wf a -> wf b -> ~ negzero a -> ~ negzero b -> (value a == value b)%Q ->
  eq m a b = Ret true.
Proof.
  intros Ha Hb Na Nb E. unfold eq. rewrite cmp_order by assumption. rewrite bind_Ret.
  rewrite order_value; auto.
  - rewrite (Qcompare_comp _ _ E _ _ (Qeq_refl _)). rewrite (proj1 (Qeq_alt _ _) (Qeq_refl _)). reflexivity.
  - intros Za Zb. unfold negzero in *. destruct (neg a), (neg b); tauto.
Qed.

(** Laws. *)
Lemma add_comm m a b res x : wf a -> wf b -> clean a -> clean b -> ~ negzero a -> ~ negzero b ->
  add_to m a b res = Ret (Ok tt, x) ->
  exists y, add_to m b a res = Ret (Ok tt, y) /\ (value x == value y)%Q /\ eq m x y = Ret true.
Proof.
  intros Ha Hb Ca Cb Na Nb H.
  assert (R : returns (add_to m b a res)).
  { apply add_to_dom; auto. assert (D : add_domain a b) by (apply (add_to_dom m a b res); auto; eexists; exact H).
    unfold add_domain, sum_fits, units_needed in *.
    rewrite (Z.max_comm (iu b)), (Z.max_comm (fu b)), (Z.add_comm (amag b)).
    intuition auto. }
  destruct R as [[rs y] E]. pose proof (add_exact m b a res rs y Hb Ha E) as (-> & Wy & Vy & _).
  pose proof (add_exact m a b res _ x Ha Hb H) as (_ & Wx & Vx & _).
  exists y. split; [exact E|]. assert (V : (value x == value y)%Q) by (rewrite Vx, Vy; ring).
  split; [exact V|]. apply eq_of_value; auto.
  - apply (add_no_negzero m a b res _ x Ha Hb Ca Cb Na Nb H).
  - apply (add_no_negzero m b a res _ y Hb Ha Cb Ca Nb Na E).
Qed.

Lemma add_assoc m a b c res ab abc bc abc' : wf a -> wf b -> wf c -> clean a -> clean b -> clean c ->
  ~ negzero a -> ~ negzero b -> ~ negzero c ->
  add_to m a b res = Ret (Ok tt, ab) -> add_to m ab c res = Ret (Ok tt, abc) ->
  add_to m b c res = Ret (Ok tt, bc) -> add_to m a bc res = Ret (Ok tt, abc') ->
  (value abc == value abc')%Q /\ eq m abc abc' = Ret true.
Proof.
  intros Ha Hb Hc Ca Cb Cc Na Nb Nc H1 H2 H3 H4.
  destruct (add_exact m a b res _ ab Ha Hb H1) as (_ & W1 & V1 & _).
  destruct (add_exact m ab c res _ abc W1 Hc H2) as (_ & W2 & V2 & _).
  destruct (add_exact m b c res _ bc Hb Hc H3) as (_ & W3 & V3 & _).
  destruct (add_exact m a bc res _ abc' Ha W3 H4) as (_ & W4 & V4 & _).
  assert (C1 : clean ab) by (apply (add_keeps m a b res _ ab Ha Hb H1); assumption).
  assert (C3 : clean bc) by (apply (add_keeps m b c res _ bc Hb Hc H3); assumption).
  pose proof (add_no_negzero m a b res _ ab Ha Hb Ca Cb Na Nb H1) as N1.
  pose proof (add_no_negzero m b c res _ bc Hb Hc Cb Cc Nb Nc H3) as N3.
  assert (V : (value abc == value abc')%Q) by (rewrite V2, V1, V4, V3; ring).
  split; [exact V|]. apply eq_of_value; auto.
  - apply (add_no_negzero m ab c res _ abc W1 Hc C1 Cc N1 Nc H2).
  - apply (add_no_negzero m a bc res _ abc' Ha W3 Ca C3 Na N3 H4).
Qed.

Lemma add_zero m a z res : wf a -> wf z -> clean a -> clean z -> ~ negzero a -> ~ negzero z ->
  (value z == 0)%Q ->
  exists x y, add_to m a z res = Ret (Ok tt, x) /\ eq m x a = Ret true /\
    add_to m z a res = Ret (Ok tt, y) /\ eq m y a = Ret true.
Proof.
  intros Ha Hz Ca Cz Na Nz Zz.
  assert (R : returns (add_to m a z res)).
  { apply add_to_dom; auto. unfold add_domain. right; left. apply is_zero_iff; assumption. }
  destruct R as [[rs x] E]. destruct (add_exact m a z res rs x Ha Hz E) as (-> & Wx & Vx & _).
  destruct (add_comm m a z res x Ha Hz Ca Cz Na Nz E) as (y & E' & V & _).
  destruct (add_exact m z a res _ y Hz Ha E') as (_ & Wy & Vy & _).
  exists x, y. split; [exact E|]. split.
  - apply eq_of_value; auto; [apply (add_no_negzero m a z res _ x Ha Hz Ca Cz Na Nz E)|].
    rewrite Vx, Zz. ring.
  - split; [exact E'|]. apply eq_of_value; auto; [apply (add_no_negzero m z a res _ y Hz Ha Cz Ca Nz Na E')|].
    rewrite Vy, Zz. ring.
Qed.

Lemma sub_self m a res rs x : wf a -> clean a -> ~ negzero a -> sub_to m a a res = Ret (rs, x) ->
  rs = Ok tt /\ (value x == 0)%Q /\ is_zero x = true /\ eq m x zero = Ret true.
Proof.
  intros Ha Ca Na H. destruct (sub_exact m a a res rs x Ha Ha H) as (-> & Wx & Vx & _).
  assert (Z : (value x == 0)%Q) by (rewrite Vx; ring).
  assert (Wz : wf zero) by (apply wfb_wf; vm_compute; reflexivity).
  split; [reflexivity|]. split; [exact Z|].
  split. { apply is_zero_iff; auto. apply (sub_keeps m a a res _ x Ha Ha H); assumption. }
  apply eq_of_value; auto.
  - apply (sub_no_negzero m a a res _ x Ha Ha Ca Ca Na Na H).
  - unfold negzero. intros [E _]. vm_compute in E. discriminate.
Qed.

Lemma sub_antisym m a b res x : wf a -> wf b -> clean a -> clean b -> ~ negzero a -> ~ negzero b ->
  sub_to m a b res = Ret (Ok tt, x) ->
  exists y, sub_to m b a res = Ret (Ok tt, y) /\ (value x == - value y)%Q /\
    (~ (value x == 0)%Q -> eq m (if neg y then set_pos y else set_neg y) x = Ret true).
Proof.
  intros Ha Hb Ca Cb Na Nb H.
  assert (R : returns (sub_to m b a res)).
  { apply sub_to_dom; auto. assert (D : sub_domain a b) by (apply (sub_to_dom m a b res); auto; eexists; exact H).
    unfold sub_domain, sum_fits, units_needed in *.
    rewrite (Z.max_comm (iu b)), (Z.max_comm (fu b)), (Z.add_comm (amag b)).
    intuition auto. }
  destruct R as [[rs y] E]. pose proof (sub_exact m b a res rs y Hb Ha E) as (-> & Wy & Vy & _).
  pose proof (sub_exact m a b res _ x Ha Hb H) as (_ & Wx & Vx & _).
  assert (V : (value x == - value y)%Q) by (rewrite Vx, Vy; ring).
  exists y. split; [exact E|]. split; [exact V|]. intros Nz.
  assert (W' : wf (if neg y then set_pos y else set_neg y)) by (destruct (neg y); auto using set_pos_wf, set_neg_wf).
  assert (V' : (value (if neg y then set_pos y else set_neg y) == value x)%Q).
  { rewrite V. rewrite !value_num by assumption.
    assert (Q : num (if neg y then set_pos y else set_neg y) = - num y).
    { destruct (neg y) eqn:Ny; [rewrite set_pos_num | rewrite set_neg_num]; auto; unfold num; rewrite Ny; ring. }
    rewrite Q. reflexivity. }
  apply eq_of_value; auto.
  - unfold negzero. intros [_ Z]. apply Nz. rewrite <- V'. exact Z.
  - unfold negzero. tauto.
Qed.

Lemma add_sub_cancel m a b res s x : wf a -> wf b -> clean a -> clean b -> ~ negzero a -> ~ negzero b ->
  add_to m a b res = Ret (Ok tt, s) -> sub_to m s b res = Ret (Ok tt, x) -> eq m x a = Ret true.
Proof.
  intros Ha Hb Ca Cb Na Nb H1 H2.
  destruct (add_exact m a b res _ s Ha Hb H1) as (_ & W1 & V1 & _).
  destruct (sub_exact m s b res _ x W1 Hb H2) as (_ & W2 & V2 & _).
  apply eq_of_value; auto.
  - apply (sub_no_negzero m s b res (Ok tt) x W1 Hb); auto.
    + apply (add_keeps m a b res _ s Ha Hb H1); assumption.
    + apply (add_no_negzero m a b res _ s Ha Hb Ca Cb Na Nb H1).
  - rewrite V2, V1. ring.
Qed.

Lemma sub_cmp m a b res rs d : wf a -> wf b -> ~ negzero a -> ~ negzero b ->
  sub_to m a b res = Ret (rs, d) -> cmp m a b = Ret (Qcompare (value d) 0).
Proof.
  intros Ha Hb Na Nb H. destruct (sub_exact m a b res rs d Ha Hb H) as (_ & _ & V & _).
  rewrite cmp_order by assumption. f_equal. rewrite order_value; auto.
  - rewrite (Qcompare_comp _ _ V _ _ (Qeq_refl _)).
    destruct (Qcompare (value a) (value b)) eqn:E; symmetry.
    + apply (proj2 (Qeq_alt _ _)) in E. apply (proj1 (Qeq_alt _ _)). rewrite E. ring.
    + apply (proj2 (Qlt_alt _ _)) in E. apply (proj1 (Qlt_alt _ _)). lra.
    + apply (proj2 (Qgt_alt _ _)) in E. apply (proj1 (Qgt_alt _ _)). lra.
  - intros Za Zb. unfold negzero in *. destruct (neg a), (neg b); tauto.
Qed.

(** Running totals. *)
Fixpoint total (m : build) (acc : fd) (l : list fd) : outcome fd :=
  match l with
  | [] => Ret acc
  | x :: t => acc' <- op_add m acc x ;; total m acc' t
  end.
Definition qsum (l : list fd) : Q := fold_right (fun d q => value d + q)%Q 0%Q l.

Lemma op_add_inv m a b d : op_add m a b = Ret d <-> add_to m a b op_res = Ret (Ok tt, d).
Proof.
  unfold op_add, unwrap_op. split.
  - intros H. apply bind_inv in H. destruct H as ([rs r] & E & H). destruct rs as [[]|]; [|discriminate].
    injection H as <-. exact E.
  - intros ->. reflexivity.
Qed.

Lemma total_exact m l : forall acc d, wf acc -> Forall wf l -> total m acc l = Ret d ->
  wf d /\ (value d == value acc + qsum l)%Q.
Proof.
  induction l as [|x t IH]; intros acc d Hacc Hl H; cbn [total] in H.
  - injection H as <-. split; [assumption|]. cbn. ring.
  - apply bind_inv in H. destruct H as (acc' & E & H). apply op_add_inv in E.
    inversion Hl as [|? ? Hx Ht]; subst.
    destruct (add_exact m acc x op_res _ acc' Hacc Hx E) as (_ & W & V & _).
    destruct (IH acc' d W Ht H) as (Wd & Vd). split; [exact Wd|]. rewrite Vd, V. change (qsum (x :: t)) with (value x + qsum t)%Q. ring.
Qed.

(** When do they return: the sum of absolute values stays below the room. *)
Definition qasum (l : list fd) : Q := fold_right (fun d q => Qabs (value d) + q)%Q 0%Q l.
Lemma qasum_nonneg l : (0 <= qasum l)%Q.
Proof.
  induction l as [|x t IH]; [apply Qle_refl|]. change (0 <= Qabs (value x) + qasum t)%Q.
  pose proof (Qabs_nonneg (value x)). lra.
Qed.

Lemma iu_of_bound d n : wf d -> (iu d = 0 \/ base ^ (iu d + fu d - 1) <= magnitude d) ->
  0 <= n -> (Qabs (value d) < inject_Z (base ^ n))%Q -> iu d <= n.
Proof.
  intros W [H|H] Hn HV; [lia|]. pose proof (wf_counts d W) as C.
  rewrite Qabs_value in HV by assumption. unfold Qlt, inject_Z in HV. cbn [Qnum Qden] in HV.
  unfold P9 in HV. rewrite Z2Pos.id in HV by reflexivity. rewrite Z.mul_1_r in HV.
  rewrite <- base_pow_split in HV by lia. unfold amag in HV.
  destruct (Z.le_gt_cases (iu d) n) as [|G]; [assumption|]. exfalso.
  assert (base ^ (iu d + fu d - 1) * base ^ (9 - fu d) <= magnitude d * base ^ (9 - fu d)).
  { apply Z.mul_le_mono_nonneg_r; [|assumption]. pose proof (pow_base_pos (9 - fu d)). lia. }
  rewrite <- base_pow_split in H0 by lia.
  assert (base ^ (n + 9) <= base ^ (iu d + fu d - 1 + (9 - fu d))) by (apply Z.pow_le_mono_r; [reflexivity|lia]).
  lia.
Qed.

Lemma add_to_shape m a b res d F I : wf a -> wf b -> add_to m a b res = Ret (Ok tt, d) ->
  fu a <= F -> fu b <= F -> iu a <= I -> iu b <= I -> 0 <= I ->
  (Qabs (value d) < inject_Z (base ^ I))%Q -> fu d <= F /\ iu d <= I.
Proof.
  intros Ha Hb H Fa Fb Ia Ib HI HV. unfold add_to in H.
  destruct (is_zero a). { injection H as <-. auto. }
  destruct (is_zero b). { injection H as <-. auto. }
  assert (G : forall v, arith_result a b d v -> fu d <= F /\ iu d <= I).
  { intros v ([W _ _] & Hf & _ & _ & _ & _ & Ht). split.
    - unfold fu at 1, frac_digits. rewrite Hf, units_for_max.
      change (units_for (fd_frac a)) with (fu a). change (units_for (fd_frac b)) with (fu b). lia.
    - apply iu_of_bound; assumption. }
  cbv zeta in H. destruct (eqb (is_neg a) (is_neg b)).
  - apply bind_inv in H. destruct H as ([rs0 d0] & E & H).
    destruct (add_path m a b res rs0 d0 (is_neg a) Ha Hb E) as (d' & E' & R). rewrite H in E'. injection E' as <-. eauto.
  - apply bind_inv in H. destruct H as ([rs0 d0] & E & H).
    destruct (sub_path m a b res rs0 d0 (is_neg a) Ha Hb E) as (d' & E' & R). rewrite H in E'. injection E' as <-. eauto.
Qed.

Lemma total_returns m F I l : 0 <= F -> 0 <= I -> F + I <= 7 ->
  forall acc, wf acc -> Forall wf l ->
  fu acc <= F -> iu acc <= I -> Forall (fun d => fu d <= F /\ iu d <= I) l ->
  (Qabs (value acc) + qasum l < inject_Z (base ^ I))%Q -> exists d, total m acc l = Ret d.
Proof.
  intros HF HI H7. induction l as [|x t IH]; intros acc Hacc Hl Fa Ia Hs HV; cbn [total].
  - eexists; reflexivity.
  - inversion Hl as [|? ? Hx Ht]; subst. inversion Hs as [|? ? [Fx Ix] Hst]; subst.
    assert (R : returns (add_to m acc x op_res)).
    { apply add_to_dom; auto. right; right; right. left. unfold units_needed. lia. }
    destruct R as [[rs acc'] E]. destruct (add_exact m acc x op_res rs acc' Hacc Hx E) as (-> & W & V & _).
    rewrite (proj2 (op_add_inv m acc x acc') E). rewrite bind_Ret.
    change (qasum (x :: t)) with (Qabs (value x) + qasum t)%Q in HV.
    assert (T : (Qabs (value acc') <= Qabs (value acc) + Qabs (value x))%Q) by (rewrite V; apply Qabs_triangle).
    pose proof (qasum_nonneg t) as Q0.
    destruct (add_to_shape m acc x op_res acc' F I Hacc Hx E Fa Fx Ia Ix HI) as [Ff Fi]; [lra|].
    apply IH; auto. lra.
Qed.

Lemma add_sub_7 m a b res : wf a -> wf b -> clean a -> clean b ->
  Z.max (iu a) (iu b) + Z.max (fu a) (fu b) <= 7 ->
  (exists d, add_to m a b res = Ret (Ok tt, d)) /\ (exists d, sub_to m a b res = Ret (Ok tt, d)).
Proof.
  intros Ha Hb Ca Cb H. split.
  - assert (R : exists o, add_to m a b res = Ret o) by (apply add_returns; auto; right; right; split; [lia|auto]).
    destruct R as [[rs d] E]. exists d. destruct (add_exact m a b res rs d Ha Hb E) as (-> & _). exact E.
  - assert (R : exists o, sub_to m a b res = Ret o) by (apply sub_returns; auto; right; right; split; [lia|auto]).
    destruct R as [[rs d] E]. exists d. destruct (sub_exact m a b res rs d Ha Hb E) as (-> & _). exact E.
Qed.
