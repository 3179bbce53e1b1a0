(** * Properties: running products (C64). *)
From Coq Require Import ZArith List Bool String Lia QArith Qabs Lqa.
From Verif Require Import Rust Model_Base Model_Cmp Model_Arith Model_Serde Spec Lib Sign AddSubQ Basics Cmp QLib RoundQ MulQ MulLaws Laws Prop_Compare Prop_Mul Tests Witness.
Import ListNotations.
Open Scope Z_scope.

(** [acc * x1 * x2 * ...] with the operator, from left to right. *)
Fixpoint running_product (m : build) (acc : fd) (l : list fd) : outcome fd :=
  match l with
  | [] => Ret acc
  | x :: t => acc' <- op_mul m acc x ;; running_product m acc' t
  end.
(** C64: the product of a list is exact if its digits fit. It is false: each multiplication rounds the
    declared integral digits up to whole units, so that 1 * 1 * ... * 1 overflows. *)
Theorem C64_running_products_are_exact_refuted : (forall m, exists d, running_product m (dec "1") (repeat (dec "1") 9) = Ret d /\ (value d == 1)%Q /\ regular d /\
  mul_to m d (dec "1") zero = Ret (Err Overflow, zero)) /\ forall m p, running_product m (dec "1") (repeat (dec "1") 10) <> Ret p.
Proof.
  split; [intros [|]; eexists; (split; [vm_compute; reflexivity|]); (split; [vm_compute; reflexivity|]); (split; [hyps|]); vm_compute; reflexivity|].
  intros [|] p; vm_compute; discriminate.
Qed.
Print Assumptions C64_running_products_are_exact_refuted.

Lemma op_mul_inv m a b d : op_mul m a b = Ret d <-> mul_to m a b op_res = Ret (Ok tt, d).
Proof.
  unfold op_mul, unwrap_op. split.
  - intros H. apply bind_inv in H. destruct H as ([rs r] & E & H). destruct rs as [[]|]; [|discriminate]. injection H as <-. exact E.
  - intros H. rewrite H. reflexivity.
Qed.
Definition int_units (l : list fd) : Z := fold_right (fun x n => iu x + n) 0 l.
Definition all_frac (l : list fd) : Z := fold_right (fun x n => frac_digits x + n) 0 l.
Definition qproduct (l : list fd) : Q := fold_right (fun x q => value x * q)%Q 1%Q l.
Lemma int_units_nonneg l : Forall regular l -> 0 <= int_units l.
Proof. induction 1 as [|x l (W & _) _ IH]; [reflexivity|]. change (int_units (x :: l)) with (iu x + int_units l). pose proof (wf_counts x W) as C. clear - C IH. lia. Qed.
Lemma all_frac_nonneg l : Forall regular l -> 0 <= all_frac l.
Proof. induction 1 as [|x l (W & _) _ IH]; [reflexivity|]. change (all_frac (x :: l)) with (frac_digits x + all_frac l). pose proof (frac_le_fu x W) as [[C _] _]. clear - C IH. lia. Qed.
Lemma product_of_zero m l : forall acc, regular acc -> (value acc == 0)%Q -> Forall regular l -> exists d, running_product m acc l = Ret d /\ regular d /\ (value d == 0)%Q.
Proof.
  induction l as [|x t IH]; intros acc Ra Z Hl; [exists acc; auto|]. inversion Hl as [|? ? Rx Ht]; subst. cbn [running_product].
  destruct (C32_zero_absorbs m x acc op_res (proj1 Rx) (proj1 Ra) (proj1 (proj2 Rx)) (proj1 (proj2 Ra)) Z) as [_ E]. rewrite (proj2 (op_mul_inv m acc x zero) E). rewrite bind_Ret. cbv beta.
  apply IH; [hyps|reflexivity|exact Ht].
Qed.
Lemma fits_step acc x t : regular acc -> regular x -> Forall regular t ->
  units_for (frac_digits acc + all_frac (x :: t)) <= 4 -> iu acc + int_units (x :: t) + units_for (frac_digits acc + all_frac (x :: t)) <= 9 -> product_fits acc x /\ units_for (int_digits acc + int_digits x) <= iu acc + iu x.
Proof.
  intros (Wa & _) (Wx & _) Ht F I. cbn [all_frac int_units fold_right] in *. fold (all_frac t) (int_units t) in *.
  pose proof (all_frac_nonneg t Ht) as A. pose proof (int_units_nonneg t Ht) as B.
  assert (U : units_for (frac_digits acc + frac_digits x) <= units_for (frac_digits acc + (frac_digits x + all_frac t))) by (apply units_mono; clear - A; lia).
  assert (V : units_for (int_digits acc + int_digits x) <= iu acc + iu x).
  { unfold iu. generalize (int_digits acc) (int_digits x). intros p q. clear. unfold units_for. apply Z.lt_succ_r, Z.div_lt_upper_bound; [lia|].
    pose proof (Z.mod_pos_bound (p + 8) 9 ltac:(lia)). pose proof (Z.mod_pos_bound (q + 8) 9 ltac:(lia)). pose proof (Z.div_mod (p + 8) 9 ltac:(lia)). pose proof (Z.div_mod (q + 8) 9 ltac:(lia)). lia. }
  split; [|exact V]. unfold product_fits. clear - U V F I B. lia.
Qed.
(** The part that holds: the digits of all factors, in whole units, fit. *)
Theorem C64_running_products_are_exact_partial : forall m l acc d, regular acc -> Forall regular l ->
  units_for (frac_digits acc + fold_right (fun x n => frac_digits x + n) 0 l) <= 4 ->
  iu acc + fold_right (fun x n => iu x + n) 0 l + units_for (frac_digits acc + fold_right (fun x n => frac_digits x + n) 0 l) <= 9 ->
  running_product m acc l = Ret d -> regular d /\ (value d == value acc * fold_right (fun x q => value x * q) 1 l)%Q.
Proof.
  intros m l. fold (all_frac l) (int_units l) (qproduct l). induction l as [|x t IH]; intros acc d Ra Hl F I H.
  - injection H as <-. split; [exact Ra|]. cbn. ring.
  - inversion Hl as [|? ? Rx Ht]; subst. destruct (Qeq_dec (value acc) 0) as [Za|Za].
    { destruct (product_of_zero m (x :: t) acc Ra Za Hl) as (d' & E & R & V). rewrite H in E. injection E as <-. split; [exact R|]. rewrite V, Za. ring. }
    destruct (fits_step acc x t Ra Rx Ht F I) as [PF PI]. cbn [running_product] in H. apply bind_inv in H. destruct H as (p & E & H). apply op_mul_inv in E.
    destruct (C28_multiplication_is_exact m acc x op_res _ p Ra Rx PF E) as (_ & Vp & Rp & Fp).
    destruct (Qeq_dec (value x) 0) as [Zx|Zx].
    { assert (Zp : (value p == 0)%Q) by (rewrite Vp, Zx; ring). destruct (product_of_zero m t p Rp Zp Ht) as (d' & E' & R & V). rewrite H in E'. injection E' as <-. split; [exact R|]. rewrite V. cbn [qproduct fold_right]. rewrite Zx. ring. }
    destruct Ra as (Wa & Ca & Ta & Na), Rx as (Wx & Cx & Tx & Nx).
    destruct (C29_sign_and_shape m acc x op_res p Wa Wx Ca Cx Ta Tx E) as (_ & _ & _ & _ & SH). destruct (SH Za Zx) as [SI _]. specialize (Fp Za Zx).
    assert (IP : iu p = product_int_units acc x) by (unfold iu; rewrite SI; unfold units_for; rewrite Z.mul_comm, Z.div_add_l by lia; change (8 / 9) with 0; lia).
    cbn [all_frac int_units fold_right] in F, I. fold (all_frac t) (int_units t) in F, I.
    destruct (IH p d Rp Ht) as (Rd & Vd); [rewrite Fp, <- Z.add_assoc; exact F| |exact H|].
    + rewrite Fp, IP, <- (Z.add_assoc (frac_digits acc)). unfold product_int_units. clear - PI I. lia.
    + split; [exact Rd|]. rewrite Vd, Vp. cbn [qproduct fold_right]. fold (qproduct t). ring.
Qed.
Print Assumptions C64_running_products_are_exact_partial.
(** And then they return. *)
Theorem C64_running_products_return_partial : forall m l acc, regular acc -> Forall regular l -> m = Release \/ 0 < int_digits acc ->
  units_for (frac_digits acc + fold_right (fun x n => frac_digits x + n) 0 l) <= 4 ->
  iu acc + fold_right (fun x n => iu x + n) 0 l + units_for (frac_digits acc + fold_right (fun x n => frac_digits x + n) 0 l) <= 9 ->
  exists d, running_product m acc l = Ret d.
Proof.
  intros m l. fold (all_frac l) (int_units l). induction l as [|x t IH]; intros acc Ra Hl M F I; [exists acc; reflexivity|].
  inversion Hl as [|? ? Rx Ht]; subst. destruct (Qeq_dec (value acc) 0) as [Za|Za].
  { destruct (product_of_zero m (x :: t) acc Ra Za Hl) as (d' & E & _). exists d'. exact E. }
  destruct (fits_step acc x t Ra Rx Ht F I) as [PF PI]. cbn [running_product].
  destruct (C28_multiplication_returns m acc x op_res Ra Rx PF ltac:(tauto)) as (p & E). rewrite (proj2 (op_mul_inv m acc x p) E), bind_Ret. cbv beta.
  destruct (C28_multiplication_is_exact m acc x op_res _ p Ra Rx PF E) as (_ & Vp & Rp & Fp).
  destruct (Qeq_dec (value x) 0) as [Zx|Zx].
  { assert (Zp : (value p == 0)%Q) by (rewrite Vp, Zx; ring). destruct (product_of_zero m t p Rp Zp Ht) as (d' & E' & _). exists d'. exact E'. }
  destruct Ra as (Wa & Ca & Ta & Na), Rx as (Wx & Cx & Tx & Nx).
  destruct (C29_sign_and_shape m acc x op_res p Wa Wx Ca Cx Ta Tx E) as (_ & _ & _ & _ & SH). destruct (SH Za Zx) as [SI _]. specialize (Fp Za Zx).
  assert (IP : iu p = product_int_units acc x) by (unfold iu; rewrite SI; unfold units_for; rewrite Z.mul_comm, Z.div_add_l by lia; change (8 / 9) with 0; lia).
  cbn [all_frac int_units fold_right] in F, I. fold (all_frac t) (int_units t) in F, I.
  apply IH; [exact Rp|exact Ht| |rewrite Fp, <- Z.add_assoc; exact F|rewrite Fp, IP, <- (Z.add_assoc (frac_digits acc)); unfold product_int_units; clear - PI I; lia].
  destruct M as [M|M]; [left; exact M|right]. rewrite SI. unfold product_int_units. pose proof (Z.mod_pos_bound (fd_intg x) 128 ltac:(lia)) as X. fold (int_digits x) in X.
  assert (1 <= units_for (int_digits acc + int_digits x)) by (unfold units_for; apply Z.div_le_lower_bound; lia). lia.
Qed.
Print Assumptions C64_running_products_return_partial.
Example C64_example : let l := [dec "1.05"; dec "-2.5"; dec "123456789.5"; dec "0.001"] in regular (dec "100") /\ Forall regular l /\ 0 < int_digits (dec "100") /\
  units_for (frac_digits (dec "100") + fold_right (fun x n => frac_digits x + n) 0 l) = 1 /\ iu (dec "100") + fold_right (fun x n => iu x + n) 0 l = 5 /\
  exists d, running_product Debug (dec "100") l = Ret d /\ to_string Debug d (-1) = Ret (bytes "-32407407.2437500").
Proof.
  cbv zeta. split; [hyps|]. split; [repeat (constructor; [hyps|]); constructor|]. split; [vm_compute; reflexivity|]. split; [vm_compute; reflexivity|]. split; [vm_compute; reflexivity|].
  eexists. split; [vm_compute; reflexivity|]. vm_compute. reflexivity.
Qed.
