(** * Decimal digit strings. *)
From Coq Require Import ZArith List Bool Lia QArith.
From Coq Require Import ZifyBool ZifyNat.
Import ListNotations.
From Verif Require Import Rust Tables Model_Base Spec Lib.
Open Scope Z_scope.
Ltac Zify.zify_post_hook ::= Z.div_mod_to_equations.

(** The last [w] decimal digits of [n], most significant first. *)
Fixpoint dig (w : nat) (n : Z) : list Z :=
  match w with
  | O => []
  | S w' => dig w' (n / 10) ++ [n mod 10]
  end.

Lemma dig_length w n : length (dig w n) = w.
Proof. revert n; induction w as [|w IH]; intros n; cbn; [reflexivity|]. rewrite app_length, IH. cbn. lia. Qed.

Lemma dig_ok w n : Forall is_digit (dig w n).
Proof.
  revert n; induction w as [|w IH]; intros n; cbn; [constructor|].
  apply Forall_app. split; [apply IH|]. constructor; [|constructor]. unfold is_digit. lia.
Qed.

Lemma pow10_S k : 10 ^ Z.of_nat (S k) = 10 * 10 ^ Z.of_nat k.
Proof. rewrite Nat2Z.inj_succ, Z.pow_succ_r by lia. reflexivity. Qed.
Lemma p10_gt0 k : 0 < 10 ^ Z.of_nat k.
Proof. apply Z.pow_pos_nonneg; lia. Qed.

Lemma dig_split a b n : dig (a + b) n = dig a (n / 10 ^ Z.of_nat b) ++ dig b n.
Proof.
  revert n; induction b as [|b IH]; intros n.
  - rewrite Nat.add_0_r, Z.pow_0_r, Z.div_1_r. cbn. now rewrite app_nil_r.
  - replace (a + S b)%nat with (S (a + b)) by lia. cbn [dig]. rewrite IH, <- app_assoc. f_equal.
    rewrite pow10_S, Z.div_div by (pose proof (p10_gt0 b); lia). reflexivity.
Qed.

Lemma dig_shift w k n : dig w (n + k * 10 ^ Z.of_nat w) = dig w n.
Proof.
  revert n; induction w as [|w IH]; intros n; cbn [dig]; [reflexivity|].
  rewrite pow10_S. replace (n + k * (10 * 10 ^ Z.of_nat w)) with (n + (k * 10 ^ Z.of_nat w) * 10) by ring.
  rewrite Z.div_add, Z.mod_add by lia. f_equal. apply IH.
Qed.
Lemma dig_mod w n : dig w (n mod 10 ^ Z.of_nat w) = dig w n.
Proof.
  rewrite <- (dig_shift w (n / 10 ^ Z.of_nat w) (n mod 10 ^ Z.of_nat w)). f_equal.
  pose proof (p10_gt0 w). rewrite (Z.div_mod n (10 ^ Z.of_nat w)) at 3 by lia. ring.
Qed.

Lemma digits_value_app a b : digits_value (a ++ b) = digits_value a * 10 ^ zlength b + digits_value b.
Proof.
  unfold digits_value. rewrite fold_left_app. generalize (fold_left (fun a0 x => 10 * a0 + x) a 0).
  unfold zlength. induction b as [|x b IH]; intros z; cbn [fold_left length]; [lia|].
  rewrite IH, (IH (10 * 0 + x)). rewrite pow10_S. ring.
Qed.
Lemma digits_value_1 x : digits_value [x] = x.
Proof. unfold digits_value. cbn. lia. Qed.
Lemma digits_value_cons x l : digits_value (x :: l) = x * 10 ^ zlength l + digits_value l.
Proof. change (x :: l) with ([x] ++ l). now rewrite digits_value_app, digits_value_1. Qed.

Lemma dig_value w n : digits_value (dig w n) = n mod 10 ^ Z.of_nat w.
Proof.
  revert n; induction w as [|w IH]; intros n; cbn [dig].
  - rewrite Z.pow_0_r, Z.mod_1_r. reflexivity.
  - rewrite digits_value_app, digits_value_1, IH. unfold zlength. cbn [length].
    rewrite (pow10_S w). change (10 ^ Z.of_nat 1) with 10.
    rewrite Z.rem_mul_r by (pose proof (p10_gt0 w); lia). ring.
Qed.

Lemma digits_value_bound l : Forall is_digit l -> 0 <= digits_value l < 10 ^ zlength l.
Proof.
  induction 1 as [|x l Hx Hl IH]; [unfold digits_value; cbn; lia|].
  rewrite digits_value_cons. unfold zlength in *. cbn [length]. rewrite pow10_S.
  unfold is_digit in Hx. nia.
Qed.

Lemma dig_of_value l : Forall is_digit l -> dig (length l) (digits_value l) = l.
Proof.
  induction 1 as [|x l Hx Hl IH]; [reflexivity|].
  cbn [length]. change (S (length l)) with (1 + length l)%nat. rewrite dig_split.
  pose proof (digits_value_bound l Hl) as B. unfold zlength in *. rewrite digits_value_cons. unfold zlength.
  unfold is_digit in Hx. pose proof (p10_gt0 (length l)).
  rewrite Z.div_add_l by lia. rewrite Z.div_small by lia. cbn [dig].
  rewrite Z.add_0_r. rewrite Z.mod_small by lia. cbn [app]. f_equal.
  rewrite Z.add_comm, dig_shift. exact IH.
Qed.

Lemma dig_firstn k w n : (k <= w)%nat -> firstn k (dig w n) = dig k (n / 10 ^ Z.of_nat (w - k)).
Proof.
  intros H. replace w with (k + (w - k))%nat at 1 by lia. rewrite dig_split.
  rewrite firstn_app, dig_length. replace (k - k)%nat with 0%nat by lia. cbn [firstn].
  rewrite app_nil_r, firstn_all2; [reflexivity|]. rewrite dig_length. lia.
Qed.

Lemma dig_0 w : dig w 0 = repeat 0 w.
Proof.
  induction w as [|w IH]; [reflexivity|]. cbn [dig]. change (0 / 10) with 0. change (0 mod 10) with 0.
  rewrite IH. change (repeat 0 w ++ [0]) with (repeat 0 w ++ repeat 0 1). rewrite <- repeat_app.
  f_equal. lia.
Qed.

(** Leading zeroes removed. *)
Fixpoint strip (l : list Z) : list Z :=
  match l with
  | [] => []
  | x :: l' => if x =? 0 then strip l' else l
  end.

Lemma strip_app a b : strip (a ++ b) = match strip a with [] => strip b | _ => strip a ++ b end.
Proof.
  induction a as [|x a IH]; cbn; [reflexivity|]. destruct (x =? 0); [exact IH | reflexivity].
Qed.
Lemma strip_value l : digits_value (strip l) = digits_value l.
Proof.
  induction l as [|x l IH]; cbn [strip]; [reflexivity|]. destruct (Z.eqb_spec x 0) as [->|]; [|reflexivity].
  rewrite IH, digits_value_cons. lia.
Qed.
Lemma strip_ok l : Forall is_digit l -> Forall is_digit (strip l).
Proof. induction 1 as [|x l Hx Hl IH]; cbn; [constructor|]. destruct (x =? 0); [exact IH | constructor; assumption]. Qed.
Lemma strip_hd l : strip l <> [] -> hd 1 (strip l) <> 0.
Proof.
  induction l as [|x l IH]; cbn [strip]; [intros H; now contradiction H|].
  destruct (Z.eqb_spec x 0); [exact IH | cbn; auto].
Qed.
Lemma strip_nil l : strip l = [] -> Forall (fun x => x = 0) l.
Proof.
  induction l as [|x l IH]; cbn [strip]; [constructor|].
  destruct (Z.eqb_spec x 0); [|discriminate]. intros H. constructor; auto.
Qed.
Lemma strip_repeat0 n : strip (repeat 0 n) = [].
Proof. induction n; cbn; auto. Qed.
Lemma strip_nil_iff w n : 0 <= n < 10 ^ Z.of_nat w -> (strip (dig w n) = [] <-> n = 0).
Proof.
  intros H. split.
  - intros E. pose proof (strip_value (dig w n)) as V. rewrite E, dig_value, Z.mod_small in V by lia.
    symmetry. exact V.
  - intros ->. rewrite dig_0. apply strip_repeat0.
Qed.
Lemma strip_len l : (length (strip l) <= length l)%nat.
Proof. induction l as [|x l IH]; cbn; [lia|]. destruct (x =? 0); cbn; lia. Qed.

(** A digit string without leading zero is determined by its value. *)
Lemma strip_split l : exists n, l = repeat 0 n ++ strip l.
Proof.
  induction l as [|x l [n IH]]; [exists 0%nat; reflexivity|]. cbn [strip].
  destruct (Z.eqb_spec x 0) as [->|]; [|exists 0%nat; reflexivity].
  exists (S n). cbn [repeat app]. now f_equal.
Qed.
Lemma strip_strip l : strip (strip l) = strip l.
Proof.
  induction l as [|x l IH]; [reflexivity|]. cbn [strip]. destruct (x =? 0) eqn:E; [exact IH|].
  cbn [strip]. now rewrite E.
Qed.
