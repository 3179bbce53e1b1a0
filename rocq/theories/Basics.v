(** * Comparison, zero test, sign accessors: the lemmas behind the properties. *)
From Coq Require Import ZArith List Bool Lia QArith Qabs Lqa.
From Coq Require Import ZifyBool ZifyNat.
Import ListNotations.
From Verif Require Import Rust Tables Model_Base Model_Cmp Model_Round Model_Arith Spec Lib Cmp AddSub Sign AddTo AddSubQ.
Open Scope Z_scope.
Ltac Zify.zify_post_hook ::= Z.div_mod_to_equations.

Lemma cmp_numeric m a b : wf a -> wf b ->
  cmp m a b = Ret (match Qcompare (value a) (value b) with
                   | Eq => match neg a, neg b with true, false => Lt | false, true => Gt | _, _ => Eq end
                   | c => c end).
Proof.
  intros Ha Hb. rewrite cmp_order by assumption. f_equal.
  rewrite value_compare by assumption. unfold order, num.
  pose proof (amag_nonneg a Ha). pose proof (amag_nonneg b Hb).
  destruct (neg a), (neg b).
  - rewrite <- Z.compare_opp. destruct (- amag a ?= - amag b) eqn:E; rewrite Z.compare_opp, ?Z.opp_involutive in *; auto.
  - destruct (Z.compare_spec (- amag a) (amag b)); auto; lia.
  - destruct (Z.compare_spec (amag a) (- amag b)); auto; lia.
  - destruct (amag a ?= amag b); auto.
Qed.

Lemma cmp_numeric_nz m a b : wf a -> wf b -> ~ negzero a -> ~ negzero b ->
  cmp m a b = Ret (Qcompare (value a) (value b)).
Proof.
  intros Ha Hb Na Nb. rewrite cmp_order by assumption. f_equal. apply order_value; auto.
  intros Za Zb. unfold negzero in *. destruct (neg a), (neg b); tauto.
Qed.

Lemma eq_iff m a b : wf a -> wf b ->
  exists r, eq m a b = Ret r /\ (r = true <-> (value a == value b)%Q /\ neg a = neg b).
Proof.
  intros Ha Hb. unfold eq. rewrite cmp_numeric by assumption. rewrite bind_Ret. eexists; split; [reflexivity|].
  destruct (Qcompare (value a) (value b)) eqn:E.
  - apply (proj2 (Qeq_alt _ _)) in E. destruct (neg a), (neg b); intuition congruence.
  - split; [discriminate|]. intros [V _]. apply (proj1 (Qeq_alt _ _)) in V. congruence.
  - split; [discriminate|]. intros [V _]. apply (proj1 (Qeq_alt _ _)) in V. congruence.
Qed.
Lemma lt_iff m a b : wf a -> wf b -> ~ negzero a -> ~ negzero b ->
  exists r, lt m a b = Ret r /\ (r = true <-> (value a < value b)%Q).
Proof.
  intros Ha Hb Na Nb. unfold lt. rewrite cmp_numeric_nz by assumption. rewrite bind_Ret. eexists; split; [reflexivity|].
  rewrite Qlt_alt. destruct (Qcompare (value a) (value b)); intuition congruence.
Qed.
Lemma gt_iff m a b : wf a -> wf b -> ~ negzero a -> ~ negzero b ->
  exists r, gt m a b = Ret r /\ (r = true <-> (value b < value a)%Q).
Proof.
  intros Ha Hb Na Nb. unfold gt. rewrite cmp_numeric_nz by assumption. rewrite bind_Ret. eexists; split; [reflexivity|].
  rewrite Qgt_alt. destruct (Qcompare (value a) (value b)); intuition congruence.
Qed.

Lemma cmp_laws m : 
  (forall a, wf a -> cmp m a a = Ret Eq) /\
  (forall a b o, wf a -> wf b -> cmp m a b = Ret o -> cmp m b a = Ret (CompOpp o)) /\
  (forall a b c o, wf a -> wf b -> wf c -> cmp m a b = Ret o -> cmp m b c = Ret o -> cmp m a c = Ret o) /\
  (forall a b c, wf a -> wf b -> wf c -> cmp m a b = Ret Eq ->
     cmp m a c = cmp m b c /\ cmp m c a = cmp m c b) /\
  (forall a b, wf a -> wf b -> exists o, cmp m a b = Ret o).
Proof.
  repeat apply conj.
  - intros a Ha. rewrite cmp_order by assumption. now rewrite order_refl.
  - intros a b o Ha Hb H. rewrite cmp_order in * by assumption. injection H as <-. now rewrite order_antisym.
  - intros a b c o Ha Hb Hc H1 H2. rewrite cmp_order in * by assumption.
    injection H1 as H1. injection H2 as H2. f_equal. eapply order_trans; eauto.
  - intros a b c Ha Hb Hc H. rewrite !cmp_order in * by assumption. injection H as H.
    split; f_equal; [|rewrite (order_antisym a c), (order_antisym b c); f_equal]; now apply order_eq_l.
  - intros a b Ha Hb. rewrite cmp_order by assumption. eexists; reflexivity.
Qed.

Lemma get_units_total m d : 0 <= d <= 127 ->
  get_units m d = if d <=? 119 then Ret (units_for d)
                  else match m with Debug => Panic POverflow | Release => Panic PIndex end.
Proof.
  intros H. destruct (Z.leb_spec d 119) as [L|L]; [apply get_units_ok; lia|].
  assert (D : d = 120 \/ d = 121 \/ d = 122 \/ d = 123 \/ d = 124 \/ d = 125 \/ d = 126 \/ d = 127) by lia.
  destruct m, D as [->|[->|[->|[->|[->|[->|[->| ->]]]]]]]; vm_compute; reflexivity.
Qed.

Lemma unit_counts m d : (0 <= fd_frac d <= 127) ->
  intg_units m d = (if int_digits d <=? 119 then Ret ((int_digits d + 8) / 9)
                    else match m with Debug => Panic POverflow | Release => Panic PIndex end) /\
  frac_units m d = (if frac_digits d <=? 119 then Ret ((frac_digits d + 8) / 9)
                    else match m with Debug => Panic POverflow | Release => Panic PIndex end).
Proof.
  intros Hf. unfold intg_units, frac_units, frac. rewrite intg_ok. split.
  - apply get_units_total. pose proof (int_digits_range d). lia.
  - apply get_units_total. exact Hf.
Qed.

Lemma sign_access d : wf d ->
  (is_neg d = neg d) /\
  (wf (set_neg d) /\ neg (set_neg d) = true /\ (value (set_neg d) == - Qabs (value d))%Q /\
   int_digits (set_neg d) = int_digits d /\ fd_frac (set_neg d) = fd_frac d /\ fd_lsu (set_neg d) = fd_lsu d) /\
  (wf (set_pos d) /\ neg (set_pos d) = false /\ (value (set_pos d) == Qabs (value d))%Q /\
   int_digits (set_pos d) = int_digits d /\ fd_frac (set_pos d) = fd_frac d /\ fd_lsu (set_pos d) = fd_lsu d) /\
  (intg (set_neg d) = intg d /\ intg (set_pos d) = intg d).
Proof.
  intros H. pose proof (set_neg_same d (wf_intg d H)) as (A & B & C). pose proof (set_pos_same d) as (A' & B' & C').
  repeat apply conj; auto using set_neg_wf, set_pos_wf, value_set_neg, value_set_pos, set_pos_neg.
  - apply is_neg_ok, wf_intg, H.
  - apply set_neg_neg, wf_intg, H.
  - rewrite !intg_ok. exact A.
  - rewrite !intg_ok. exact A'.
Qed.

Lemma res_irrelevant m a b r r' f :
  add_to m a b r = add_to m a b r' /\ sub_to m a b r = sub_to m a b r' /\
  mul_to m a b r = mul_to m a b r' /\ div_to m a b r f = div_to m a b r' f /\
  rem_to m a b r = rem_to m a b r' /\ round_to m a r f = round_to m a r' f.
Proof. repeat split; reflexivity. Qed.
