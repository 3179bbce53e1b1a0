(** * Properties: changing the signs of operands (C56). *)
From Coq Require Import ZArith List Bool String Lia QArith Qabs.
From Verif Require Import Rust Model_Base Model_Cmp Model_Arith Model_Serde Spec Spec_Flip Lib Sign Flip Tests Witness.
Import ListNotations.
Open Scope Z_scope.

(** C56: what [flip] means for a user: the sign accessors of the API. *)
Theorem C56_flip_is_a_sign_change : forall d, wf d -> flip d = (if is_neg d then set_pos d else set_neg d) /\ (value (flip d) == - value d)%Q.
Proof.
  intros d W. split; [|apply MulLaws.flip_value, W]. rewrite is_neg_ok by apply wf_intg, W. pose proof (wf_intg d W) as [I1 I2].
  unfold flip. destruct (neg d) eqn:N; unfold neg in N.
  - unfold set_pos. rewrite land_pos. f_equal. clear - I1 N. unfold int_digits. apply Z.ltb_lt in N.
    rewrite <- (Z.mod_add (fd_intg d) 1 128) by lia. symmetry. apply Z.mod_small. lia.
  - unfold set_neg. rewrite lor_neg by (clear - I1 I2; lia). f_equal. clear - I2 N. unfold int_digits. apply Z.ltb_ge in N. rewrite Z.mod_small by lia. reflexivity.
Qed.
Print Assumptions C56_flip_is_a_sign_change.

(** Products and quotients change sign with either operand. *)
Theorem C56_products : forall m a b res, wf a -> wf b ->
  opposite_outcomes (mul_to m a b res) (mul_to m (flip a) b res) /\ opposite_outcomes (mul_to m a b res) (mul_to m a (flip b) res).
Proof. intros m a b res Ha Hb. split; [apply mul_flip_l|apply mul_flip_r]; assumption. Qed.
Print Assumptions C56_products.
Theorem C56_quotients : forall m a b res incr, wf a -> wf b ->
  opposite_outcomes (div_to m a b res incr) (div_to m (flip a) b res incr) /\ opposite_outcomes (div_to m a b res incr) (div_to m a (flip b) res incr).
Proof. intros m a b res incr Ha Hb. split; [apply div_flip_l|apply div_flip_r]; assumption. Qed.
Print Assumptions C56_quotients.
(** Remainders change sign with the dividend and ignore the sign of the divisor. *)
Theorem C56_remainders : forall m a b res, wf a -> wf b ->
  opposite_outcomes (rem_to m a b res) (rem_to m (flip a) b res) /\ rem_to m a (flip b) res = rem_to m a b res.
Proof. intros m a b res Ha Hb. split; [apply rem_flip_l|apply rem_flip_r]; assumption. Qed.
Print Assumptions C56_remainders.
(** Sums and differences change sign when both operands do; and subtracting is adding the opposite. *)
Theorem C56_sums_and_differences : forall m a b res, wf a -> wf b ->
  opposite_outcomes (add_to m a b res) (add_to m (flip a) (flip b) res) /\ opposite_outcomes (sub_to m a b res) (sub_to m (flip a) (flip b) res) /\
  equal_outcomes (sub_to m a b res) (add_to m a (flip b) res) /\ equal_outcomes (add_to m a b res) (sub_to m a (flip b) res).
Proof.
  intros m a b res Ha Hb. split; [|split; [|split]]; [apply add_flip|apply sub_flip|apply sub_is_add|]; try assumption.
  pose proof (sub_is_add m a (flip b) res Ha (flip_wf b Hb)) as H. rewrite flip_flip in H by exact Hb.
  unfold equal_outcomes in *. destruct (sub_to m a (flip b) res) as [[[u|e] d]|p], (add_to m a b res) as [[[u'|e'] d']|p']; try contradiction; try (symmetry; exact H).
  destruct H as (A & B & C & D). repeat split; symmetry; assumption.
Qed.
Print Assumptions C56_sums_and_differences.

(** Also for the operands for which quotient, remainder, sum or product fail or are wrong. *)
Example C56_example : let a := dec "-12.5" in let b := dec "2.000000000000000000001" in let w := dec "2" in let v := dec "1.000000000000000001" in
  wf a /\ wf b /\ wf w /\ wf v /\
  (exists d d', div_to Debug a b zero 4 = Ret (Ok tt, d) /\ div_to Debug (flip a) b zero 4 = Ret (Ok tt, d') /\ ~ (value d == 0)%Q) /\
  (exists d, rem_to Debug w v zero = Ret (Ok tt, d) /\ ~ (value d == 0)%Q) /\
  (exists d, sub_to Debug a b zero = Ret (Ok tt, d)) /\ (exists d, mul_to Debug a b zero = Ret (Ok tt, d)) /\
  (let big := dec "999999999999999999999999999999999999.0000000000000000000000000001" in wf big /\ add_to Debug big (dec "1") zero = Panic PIndex /\ add_to Debug (flip big) (flip (dec "1")) zero = Panic PIndex).
Proof.
  cbv zeta. split; [hyps|]. split; [hyps|]. split; [hyps|]. split; [hyps|].
  split; [do 2 eexists; split; [vm_compute; reflexivity|]; split; [vm_compute; reflexivity|]; vm_compute; discriminate|].
  split; [eexists; split; [vm_compute; reflexivity|]; vm_compute; discriminate|].
  split; [eexists; vm_compute; reflexivity|]. split; [eexists; vm_compute; reflexivity|]. split; [hyps|]. split; vm_compute; reflexivity.
Qed.
