(** * Sign flag, zero test and related accessors (src/decimal.rs:45-127). *)
From Coq Require Import ZArith List Bool Lia QArith Qabs.
From Coq Require Import ZifyBool ZifyNat.
Import ListNotations.
From Verif Require Import Rust Tables Model_Base Spec Lib Cmp AddSub.
Open Scope Z_scope.
Ltac Zify.zify_post_hook ::= Z.div_mod_to_equations.

(** Same digits and digit counts, possibly another sign. *)
Definition same_digits (d d' : fd) : Prop :=
  int_digits d' = int_digits d /\ fd_frac d' = fd_frac d /\ fd_lsu d' = fd_lsu d.

Lemma same_iu d d' : same_digits d d' -> iu d' = iu d.
Proof. intros (H & _). unfold iu. now rewrite H. Qed.
Lemma same_fu d d' : same_digits d d' -> fu d' = fu d.
Proof. intros (_ & H & _). unfold fu, frac_digits. now rewrite H. Qed.
Lemma same_magnitude d d' : same_digits d d' -> magnitude d' = magnitude d.
Proof. intros H. rewrite !magnitude_sg, (same_iu _ _ H), (same_fu _ _ H). destruct H as (_ & _ & ->). reflexivity. Qed.
Lemma same_amag d d' : same_digits d d' -> amag d' = amag d.
Proof. intros H. unfold amag. now rewrite (same_magnitude _ _ H), (same_fu _ _ H). Qed.
Lemma same_wf d d' : same_digits d d' -> -128 <= fd_intg d' < 128 -> wf d -> wf d'.
Proof.
  intros H Hr [L U I F T]. pose proof (same_iu _ _ H) as Ei. pose proof (same_fu _ _ H) as Ef.
  destruct H as (H1 & H2 & H3).
  constructor; rewrite ?H2, ?H3, ?Ei, ?Ef; assumption.
Qed.
Lemma same_clean d d' : same_digits d d' -> clean d -> clean d'.
Proof. intros H. unfold clean. rewrite (same_iu _ _ H), (same_fu _ _ H). destruct H as (_ & _ & ->). auto. Qed.
Lemma same_tight d d' : same_digits d d' -> tight d -> tight d'.
Proof. intros H. unfold tight. rewrite (same_magnitude _ _ H), (same_fu _ _ H). destruct H as (-> & _). auto. Qed.
Lemma same_nohidden d d' : same_digits d d' -> nohidden d -> nohidden d'.
Proof. intros H. unfold nohidden, frac_digits. rewrite (same_magnitude _ _ H), (same_fu _ _ H). destruct H as (_ & -> & _). auto. Qed.
Lemma same_is_zero d d' : same_digits d d' -> is_zero d' = is_zero d.
Proof. intros (_ & _ & H). unfold is_zero. now rewrite H. Qed.

Lemma set_neg_intg d : -128 <= fd_intg d < 128 -> fd_intg (set_neg d) = int_digits d - 128.
Proof. intros H. unfold set_neg. cbn [fd_intg]. apply lor_neg, H. Qed.
Lemma set_pos_intg d : fd_intg (set_pos d) = int_digits d.
Proof. unfold set_pos. cbn [fd_intg]. apply land_pos. Qed.

Lemma set_neg_same d : -128 <= fd_intg d < 128 -> same_digits d (set_neg d).
Proof.
  intros H. unfold same_digits. unfold int_digits at 1. rewrite set_neg_intg by assumption.
  split; [unfold int_digits; lia | split; reflexivity].
Qed.
Lemma set_pos_same d : same_digits d (set_pos d).
Proof.
  unfold same_digits. unfold int_digits at 1. rewrite set_pos_intg.
  split; [unfold int_digits; lia | split; reflexivity].
Qed.
Lemma set_neg_neg d : -128 <= fd_intg d < 128 -> neg (set_neg d) = true.
Proof. intros H. unfold neg. rewrite set_neg_intg by assumption. pose proof (int_digits_range d). lia. Qed.
Lemma set_pos_neg d : neg (set_pos d) = false.
Proof. unfold neg. rewrite set_pos_intg. pose proof (int_digits_range d). lia. Qed.

Lemma set_neg_wf d : wf d -> wf (set_neg d).
Proof.
  intros H. eapply same_wf; [apply set_neg_same, wf_intg, H | | exact H].
  rewrite set_neg_intg by apply wf_intg, H. pose proof (int_digits_range d). lia.
Qed.
Lemma set_pos_wf d : wf d -> wf (set_pos d).
Proof.
  intros H. eapply same_wf; [apply set_pos_same | | exact H].
  rewrite set_pos_intg. pose proof (int_digits_range d). lia.
Qed.
Lemma set_neg_num d : wf d -> num (set_neg d) = - amag d.
Proof.
  intros H. unfold num. rewrite set_neg_neg by apply wf_intg, H.
  rewrite (same_amag d) by apply set_neg_same, wf_intg, H. reflexivity.
Qed.
Lemma set_pos_num d : wf d -> num (set_pos d) = amag d.
Proof. intros H. unfold num. rewrite set_pos_neg. rewrite (same_amag d) by apply set_pos_same. reflexivity. Qed.

(** is_zero *)
Lemma is_zero_true d : is_zero d = true -> forall i, zn (fd_lsu d) i = 0.
Proof.
  unfold is_zero. rewrite forallb_forall. intros H i.
  destruct (Nat.lt_ge_cases (Z.to_nat i) (length (fd_lsu d))) as [Hi|Hi].
  - specialize (H (zn (fd_lsu d) i) (nth_In _ _ Hi)). lia.
  - unfold zn. apply nth_overflow. lia.
Qed.
Lemma is_zero_intro d : (forall i, 0 <= i < zlen (fd_lsu d) -> zn (fd_lsu d) i = 0) -> is_zero d = true.
Proof.
  intros H. unfold is_zero. apply forallb_forall. intros x Hx.
  apply (In_nth _ _ 0) in Hx. destruct Hx as (n & Hn & <-). specialize (H (Z.of_nat n)).
  unfold zn, zlen in H. rewrite Nat2Z.id in H. rewrite H by lia. reflexivity.
Qed.
Lemma is_zero_magnitude d : is_zero d = true -> magnitude d = 0.
Proof. intros H. rewrite magnitude_sg. apply sg_0. intros. apply is_zero_true, H. Qed.
Lemma is_zero_num d : is_zero d = true -> num d = 0.
Proof. intros H. unfold num, amag. rewrite (is_zero_magnitude d H). destruct (neg d); lia. Qed.
Lemma is_zero_clean d : is_zero d = true -> wf d -> clean d.
Proof. intros H Hw. pose proof (wf_counts d Hw). apply clean_intro; [|lia]. intros. apply is_zero_true, H. Qed.
Lemma is_zero_false d : wf d -> clean d -> is_zero d = false -> 0 < magnitude d.
Proof.
  intros Hw Hc H. pose proof (magnitude_nonneg d Hw).
  destruct (Z.eq_dec (magnitude d) 0) as [E|]; [|lia]. exfalso.
  rewrite magnitude_sg in E.
  assert (is_zero d = true); [|congruence].
  apply is_zero_intro. intros i Hi.
  destruct (Z_lt_dec i (iu d + fu d)).
  - apply (sg_zero_inv _ _ _ (wf_uok d Hw) E). lia.
  - apply clean_elim; auto; lia.
Qed.
Lemma is_zero_iff d : wf d -> clean d -> (is_zero d = true <-> (value d == 0)%Q).
Proof.
  intros Hw Hc. rewrite value_zero_iff by assumption. split; [apply is_zero_magnitude|].
  intros E. destruct (is_zero d) eqn:Ez; [reflexivity|]. apply is_zero_false in Ez; auto. lia.
Qed.

Lemma amag_magnitude_zero d : wf d -> (amag d = 0 <-> magnitude d = 0).
Proof.
  intros H. unfold amag. pose proof (wf_counts d H). pose proof (pow_base_pos (9 - fu d)). nia.
Qed.

(** [set_neg_and_check_zero] negates, without making a negative zero. *)
Lemma check_zero_same d : -128 <= fd_intg d < 128 -> same_digits d (set_neg_and_check_zero d).
Proof.
  intros H. unfold set_neg_and_check_zero. destruct (is_zero (set_neg d)).
  - pose proof (set_neg_same d H) as (A & B & C). pose proof (set_pos_same (set_neg d)) as (A' & B' & C').
    repeat split; congruence.
  - apply set_neg_same, H.
Qed.
Lemma check_zero_wf d : wf d -> wf (set_neg_and_check_zero d).
Proof.
  intros H. unfold set_neg_and_check_zero. destruct (is_zero (set_neg d)); auto using set_pos_wf, set_neg_wf.
Qed.
Lemma check_zero_num d : wf d -> num (set_neg_and_check_zero d) = - amag d.
Proof.
  intros H. unfold set_neg_and_check_zero. destruct (is_zero (set_neg d)) eqn:E.
  - rewrite set_pos_num by (apply set_neg_wf, H). 
    rewrite (same_amag d) by apply set_neg_same, wf_intg, H.
    rewrite (same_is_zero d) in E by apply set_neg_same, wf_intg, H.
    apply is_zero_magnitude in E. unfold amag. rewrite E. lia.
  - apply set_neg_num, H.
Qed.
Lemma check_zero_neg d : wf d -> clean d -> neg (set_neg_and_check_zero d) = negb (magnitude d =? 0).
Proof.
  intros H Hc. unfold set_neg_and_check_zero.
  rewrite (same_is_zero d) by apply set_neg_same, wf_intg, H.
  destruct (is_zero d) eqn:E.
  - rewrite set_pos_neg. apply is_zero_magnitude in E. rewrite E. reflexivity.
  - rewrite set_neg_neg by apply wf_intg, H. apply is_zero_false in E; auto.
    replace (magnitude d =? 0) with false by lia. reflexivity.
Qed.

(** The bundle of facts most results satisfy. *)
Record good (d : fd) : Prop := mkgood { good_wf : wf d; good_clean : clean d; good_tight : tight d }.

Definition not_negzero (d : fd) : Prop := neg d = true -> num d <> 0.

Lemma good_same d d' : same_digits d d' -> -128 <= fd_intg d' < 128 -> good d -> good d'.
Proof.
  intros H Hi [W C T]. constructor; [eapply same_wf | eapply same_clean | eapply same_tight]; eauto.
Qed.
Lemma set_neg_good d : good d -> good (set_neg d).
Proof.
  intros [W C T]. pose proof (set_neg_same d (wf_intg d W)).
  constructor; [apply set_neg_wf; assumption | eapply same_clean | eapply same_tight]; eauto.
Qed.
Lemma set_pos_good d : good d -> good (set_pos d).
Proof.
  intros [W C T]. pose proof (set_pos_same d).
  constructor; [apply set_pos_wf; assumption | eapply same_clean | eapply same_tight]; eauto.
Qed.
Lemma check_zero_good d : good d -> good (set_neg_and_check_zero d).
Proof.
  intros [W C T]. pose proof (check_zero_same d (wf_intg d W)).
  constructor; [apply check_zero_wf; assumption | eapply same_clean | eapply same_tight]; eauto.
Qed.

Lemma negzero_iff d : wf d -> (~ negzero d <-> not_negzero d).
Proof.
  intros H. unfold negzero, not_negzero. rewrite <- num_zero_value by assumption. tauto.
Qed.

Lemma value_set_neg d : wf d -> (value (set_neg d) == - Qabs (value d))%Q.
Proof.
  intros H. pose proof (magnitude_nonneg d H).
  unfold value. rewrite set_neg_neg by apply wf_intg, H.
  pose proof (set_neg_same d (wf_intg d H)) as S. rewrite (same_magnitude d _ S), (same_fu d _ S).
  unfold Qeq, Qabs, Qopp. cbn [Qnum Qden]. destruct (neg d); lia.
Qed.
Lemma value_set_pos d : wf d -> (value (set_pos d) == Qabs (value d))%Q.
Proof.
  intros H. pose proof (magnitude_nonneg d H).
  unfold value. rewrite set_pos_neg.
  pose proof (set_pos_same d) as S. rewrite (same_magnitude d _ S), (same_fu d _ S).
  unfold Qeq, Qabs, Qopp. cbn [Qnum Qden]. destruct (neg d); lia.
Qed.
