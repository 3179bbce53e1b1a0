(** * Properties: comparison, zero test, sign accessors, digit counts
    (C13, C14, C15, C46, C47, C52).  Statements only; the vocabulary is that of
    [Spec] ([value], [neg], [wf], [clean], [negzero]) and the functions of
    the model. *)
From Coq Require Import ZArith List Bool String QArith Qabs.
From Verif Require Import Rust Model_Base Model_Cmp Spec Lib Cmp Sign Basics Witness.
Open Scope Z_scope.

(** C13.  [cmp] never panics and is the order of the numbers; only zeroes
    with different sign flags are told apart although equal as numbers. *)
Theorem C13_comparison_is_numeric : forall m a b, wf a -> wf b ->
  cmp m a b = Ret (match Qcompare (value a) (value b) with
                   | Eq => match neg a, neg b with true, false => Lt | false, true => Gt | _, _ => Eq end
                   | c => c end).
Proof. exact cmp_numeric. Qed.
Print Assumptions C13_comparison_is_numeric.

Theorem C13_eq_is_numeric : forall m a b, wf a -> wf b ->
  exists r, eq m a b = Ret r /\ (r = true <-> (value a == value b)%Q /\ neg a = neg b).
Proof. exact eq_iff. Qed.
Print Assumptions C13_eq_is_numeric.

Theorem C13_lt_is_numeric : forall m a b, wf a -> wf b -> ~ negzero a -> ~ negzero b ->
  exists r, lt m a b = Ret r /\ (r = true <-> (value a < value b)%Q).
Proof. exact lt_iff. Qed.
Print Assumptions C13_lt_is_numeric.

Theorem C13_gt_is_numeric : forall m a b, wf a -> wf b -> ~ negzero a -> ~ negzero b ->
  exists r, gt m a b = Ret r /\ (r = true <-> (value b < value a)%Q).
Proof. exact gt_iff. Qed.
Print Assumptions C13_gt_is_numeric.

(** Decimals of different shapes meet the hypotheses. *)
Example C13_example :
  let a := dec "-12345678901234567890.5" in let b := dec "0000.00000000001" in let c := dec "00.000000000010" in
  wf a /\ wf b /\ wf c /\ cmp Debug a b = Ret Lt /\ cmp Debug b c = Ret Eq /\ cmp Release c a = Ret Gt
  /\ iu b <> iu a /\ fu b <> fu a.
Proof. hyps. Qed.

(** C14.  A total order whose equality is a congruence. *)
Theorem C14_comparison_is_a_total_order : forall m,
  (forall a, wf a -> cmp m a a = Ret Eq) /\
  (forall a b o, wf a -> wf b -> cmp m a b = Ret o -> cmp m b a = Ret (CompOpp o)) /\
  (forall a b c o, wf a -> wf b -> wf c -> cmp m a b = Ret o -> cmp m b c = Ret o -> cmp m a c = Ret o) /\
  (forall a b c, wf a -> wf b -> wf c -> cmp m a b = Ret Eq ->
     cmp m a c = cmp m b c /\ cmp m c a = cmp m c b) /\
  (forall a b, wf a -> wf b -> exists o, cmp m a b = Ret o).
Proof. exact cmp_laws. Qed.
Print Assumptions C14_comparison_is_a_total_order.
Example C14_example : let a := dec "-1.5" in let b := dec "-1.4999999999" in let c := dec "00.7" in wf a /\ wf b /\ wf c /\
  cmp Debug a b = Ret Lt /\ cmp Debug b c = Ret Lt /\ cmp Debug c (dec "0.70") = Ret Eq.
Proof. cbv zeta. split; [hyps|]. split; [hyps|]. split; [hyps|]. split; [vm_compute; reflexivity|]. split; vm_compute; reflexivity. Qed.

(** C15 is false: equal numbers that are not [==] (and not [Eq] under [cmp]). *)
Theorem C15_equal_numbers_compare_equal_refuted :
  exists a b, wf a /\ wf b /\ a = dec "-0" /\ b = dec "0" /\ (value a == value b)%Q /\
    forall m, eq m a b = Ret false /\ cmp m a b = Ret Lt.
Proof.
  exists (dec "-0"), (dec "0"). split; [wfd|]. split; [wfd|]. split; [reflexivity|]. split; [reflexivity|].
  split; [vm_compute; reflexivity|]. intros [|]; vm_compute; split; reflexivity.
Qed.
Print Assumptions C15_equal_numbers_compare_equal_refuted.

(** The part of C15 that holds. *)
Theorem C15_equal_numbers_compare_equal_partial : forall m a b, wf a -> wf b -> ~ negzero a -> ~ negzero b ->
  (value a == value b)%Q -> eq m a b = Ret true.
Proof. exact AddSubQ.eq_of_value. Qed.
Print Assumptions C15_equal_numbers_compare_equal_partial.

Example C15_example : let a := dec "1.5" in let b := dec "001.50000000000" in
  wf a /\ wf b /\ (value a == value b)%Q /\ fd_lsu a <> fd_lsu b.
Proof. hyps. Qed.

(** C46. *)
Theorem C46_is_zero_means_zero : forall d, wf d -> clean d -> (is_zero d = true <-> (value d == 0)%Q).
Proof. exact is_zero_iff. Qed.
Print Assumptions C46_is_zero_means_zero.

Example C46_example : let a := dec "-0.000" in let b := dec "0.0000000001" in
  wf a /\ clean a /\ wf b /\ clean b /\ is_zero a = true /\ is_zero b = false.
Proof. hyps. Qed.

(** C47. *)
Theorem C47_sign_accessors : forall d, wf d ->
  (is_neg d = neg d) /\
  (wf (set_neg d) /\ neg (set_neg d) = true /\ (value (set_neg d) == - Qabs (value d))%Q /\
   int_digits (set_neg d) = int_digits d /\ fd_frac (set_neg d) = fd_frac d /\ fd_lsu (set_neg d) = fd_lsu d) /\
  (wf (set_pos d) /\ neg (set_pos d) = false /\ (value (set_pos d) == Qabs (value d))%Q /\
   int_digits (set_pos d) = int_digits d /\ fd_frac (set_pos d) = fd_frac d /\ fd_lsu (set_pos d) = fd_lsu d) /\
  (intg (set_neg d) = intg d /\ intg (set_pos d) = intg d).
Proof. exact sign_access. Qed.
Print Assumptions C47_sign_accessors.

Example C47_example : let a := dec "-12.5" in wf a /\ is_neg a = true /\ is_neg (set_pos a) = false.
Proof. hyps. Qed.

(** C52.  For every value of the two i8 fields with a non-negative frac. *)
Theorem C52_unit_counts : forall m d, (0 <= fd_frac d <= 127) ->
  intg_units m d = (if int_digits d <=? 119 then Ret ((int_digits d + 8) / 9)
                    else match m with Debug => Panic POverflow | Release => Panic PIndex end) /\
  frac_units m d = (if frac_digits d <=? 119 then Ret ((frac_digits d + 8) / 9)
                    else match m with Debug => Panic POverflow | Release => Panic PIndex end).
Proof. exact unit_counts. Qed.
Print Assumptions C52_unit_counts.

Example C52_example : let a := dec "-1234567890.5" in 0 <= fd_frac a <= 127 /\
  intg_units Debug a = Ret 2 /\ frac_units Debug a = Ret 1.
Proof. hyps. Qed.
