(** * Properties: parsing and round trips (C01-C07, C10, C11, C50 sums). *)
From Coq Require Import ZArith List Bool String QArith.
From Verif Require Import Rust Model_Base Model_Cmp Model_Decimal Model_Arith Model_Serde Spec Lib Print ParseMain ParseThms Witness Tests.
Import ListNotations.
Open Scope Z_scope.

(** C01: an accepted string (of at most 127 mantissa digits) is a numeral, and
    the decimal is the number it denotes. *)
Theorem C01_parsing_is_exact : forall m self bs reset d, wf self -> mantissa_digits bs <= 127 ->
  from_bytes_str m self bs reset = Ret (Ok tt, d) ->
  exists n, numeral_ok n /\ bs = numeral_bytes n /\ wf d /\ (value d == numeral_value n)%Q /\
    neg d = is_minus (n_sign n) /\ frac_digits d = numeral_frac n.
Proof.
  intros m self bs reset d W MD E. destruct (parse_sound m self reset bs d W MD E) as (n & EB & OK & _ & [PW PV PN PF _ _ _ _]).
  exists n. split; [exact OK|]. split; [exact EB|]. split; [exact PW|]. split; [exact PV|]. split; [exact PN|exact PF].
Qed.
Print Assumptions C01_parsing_is_exact.
Theorem C01_from_str_is_exact : forall m bs d, mantissa_digits bs <= 127 -> from_str m bs = Ret (Ok d) ->
  exists n, numeral_ok n /\ bs = numeral_bytes n /\ wf d /\ (value d == numeral_value n)%Q /\
    neg d = is_minus (n_sign n) /\ frac_digits d = numeral_frac n.
Proof.
  intros m bs d MD E. destruct (from_str_sound m bs d MD E) as (n & EB & OK & _ & [PW PV PN PF _ _ _ _] & _).
  exists n. split; [exact OK|]. split; [exact EB|]. split; [exact PW|]. split; [exact PV|]. split; [exact PN|exact PF].
Qed.
Print Assumptions C01_from_str_is_exact.
(** What parsing guarantees to the operations: the decimal is well-formed,
    holds no digits beyond the declared ones, and the declared ones are enough. *)
Theorem C01_parsed_decimals_are_clean : forall m bs d, mantissa_digits bs <= 127 -> from_str m bs = Ret (Ok d) ->
  wf d /\ clean d /\ tight d /\ nohidden d.
Proof.
  intros m bs d MD E. destruct (from_str_sound m bs d MD E) as (n & _ & _ & _ & [PW _ _ _ _ PT PH _] & CL).
  split; [exact PW|]. split; [exact CL|]. split; [exact PT|exact PH].
Qed.
Print Assumptions C01_parsed_decimals_are_clean.

Example C01_example : mantissa_digits (bytes "-012.50e-3") <= 127 /\
  (exists d, from_str Debug (bytes "-012.50e-3") = Ret (Ok d) /\ (value d == -125 # 10000)%Q /\ frac_digits d = 5).
Proof. split; [vm_compute; discriminate|]. eexists. split; [vm_compute; reflexivity|]. split; [vm_compute; reflexivity|]. vm_compute. reflexivity. Qed.

(** C02 *)
Theorem C02_numerals_within_the_limits_are_accepted : forall m self n reset, wf self -> numeral_ok n ->
  -30 <= numeral_exp n <= 65 -> numeral_digits n <= 65 ->
  exists d, from_bytes_str m self (numeral_bytes n) reset = Ret (Ok tt, d) /\ wf d /\ (value d == numeral_value n)%Q /\
    neg d = is_minus (n_sign n) /\ frac_digits d = numeral_frac n.
Proof.
  intros m self n reset W OK WE WD. destruct (parse_accepts m self reset n W OK (conj WE WD)) as (d & E & [PW PV PN PF _ _ _ _]).
  exists d. split; [exact E|]. split; [exact PW|]. split; [exact PV|]. split; [exact PN|exact PF].
Qed.
Print Assumptions C02_numerals_within_the_limits_are_accepted.
Theorem C02_from_str_accepts : forall m n, numeral_ok n -> -30 <= numeral_exp n <= 65 -> numeral_digits n <= 65 ->
  exists d, from_str m (numeral_bytes n) = Ret (Ok d) /\ (value d == numeral_value n)%Q.
Proof.
  intros m n OK WE WD. destruct (from_str_accepts m n OK (conj WE WD)) as (d & E & [_ PV _ _ _ _ _ _] & _). exists d. split; [exact E|exact PV].
Qed.
Print Assumptions C02_from_str_accepts.

Example C02_example : let n := mknum (Some true) [] true [0; 7] (Some (true, Some false, [0; 0; 0; 6; 5])) in
  numeral_bytes n = bytes "-.07E+00065" /\ numeral_ok n /\ -30 <= numeral_exp n <= 65 /\ numeral_digits n <= 65 /\ wf (dec "12.5").
Proof.
  split; [reflexivity|]. split; [|split; [vm_compute; split; discriminate|split; [vm_compute; discriminate|wfd]]].
  repeat split; cbn; repeat constructor; try discriminate; unfold is_digit; cbn; try discriminate.
Qed.

(** C03 *)
Theorem C03_the_rest_is_rejected : forall m self bs reset, wf self -> mantissa_digits bs <= 62 -> exp_length bs <= 10 ->
  exists r d, from_bytes_str m self bs reset = Ret (r, d) /\
    (r = Err ConversionSyntax <->
     ~ exists n, numeral_ok n /\ -30 <= numeral_exp n <= 65 /\ numeral_digits n <= 65 /\ bs = numeral_bytes n) /\
    (r = Ok tt \/ r = Err ConversionSyntax).
Proof.
  intros m self bs reset W MD EL.
  destruct (parse_cases m self reset bs W ltac:(eapply Z.le_trans; [exact MD|discriminate])) as [(n & d & EB & OK & [WE WD] & E & PD)|(N & H)].
  - exists (Ok tt), d. split; [exact E|]. split; [|left; reflexivity]. split; [discriminate|]. intros H. exfalso. apply H.
    exists n. split; [exact OK|]. split; [exact WE|]. split; [exact WD|exact EB].
  - destruct H as [H|(_ & [H|H] & _)].
    + exists (Err ConversionSyntax), (tgt reset self). split; [exact H|]. split; [|right; reflexivity]. split; [|reflexivity].
      intros _ (n & OK & WE & WD & EB). exact (N n OK (conj WE WD) (eq_sym EB)).
    + exfalso. apply (Z.lt_irrefl 62). eapply Z.lt_le_trans; eassumption.
    + exfalso. apply (Z.lt_irrefl 10). apply Z.lt_le_trans with 11; [reflexivity|]. eapply Z.le_trans; eassumption.
Qed.
Print Assumptions C03_the_rest_is_rejected.
Example C03_example : mantissa_digits (bytes "1.2.3e5") <= 62 /\ exp_length (bytes "1.2.3e5") <= 10 /\
  (exists d, from_bytes_str Debug (dec "12.5") (bytes "1.2.3e5") false = Ret (Err ConversionSyntax, d)).
Proof. split; [vm_compute; discriminate|]. split; [vm_compute; discriminate|]. eexists. vm_compute. reflexivity. Qed.

(** C04 is false: the digit counter is an i8.  A one and 256 zeroes: a release
    build returns the number 1, a debug build panics. *)
Theorem C04_long_strings_refuted : exists n, numeral_ok n /\
  (exists d, from_str Release (numeral_bytes n) = Ret (Ok d) /\ ~ (value d == numeral_value n)%Q) /\
  from_str Debug (numeral_bytes n) = Panic POverflow.
Proof.
  exists (mknum None (1 :: repeat 0 256) false [] None). split; [|split].
  - split; [|split; [constructor|split; [discriminate|split; [reflexivity|exact I]]]].
    cbn [n_int]. constructor; [split; discriminate|]. apply Forall_forall. intros x Hx. apply repeat_spec in Hx. subst x. split; discriminate.
  - eexists. split; [vm_compute; reflexivity|]. vm_compute. discriminate.
  - vm_compute. reflexivity.
Qed.
Print Assumptions C04_long_strings_refuted.
(** An exponent of eleven digits panics in a debug build. *)
Theorem C04_long_exponents_refuted : exists bs, mantissa_digits bs = 1 /\ from_str Debug bs = Panic POverflow /\
  from_str Release bs = Ret (Err ConversionSyntax).
Proof. exists (bytes "1e99999999999"). split; [reflexivity|]. split; vm_compute; reflexivity. Qed.
Print Assumptions C04_long_exponents_refuted.
(** What holds at every length below 128 mantissa digits: a panic is the only
    failure, only in a debug build, and only on a string outside the limits. *)
Theorem C04_parsing_is_total_and_exact_partial : forall m self bs reset, wf self -> mantissa_digits bs <= 127 ->
  (exists n d, numeral_ok n /\ bs = numeral_bytes n /\ from_bytes_str m self bs reset = Ret (Ok tt, d) /\ (value d == numeral_value n)%Q) \/
  (exists d, from_bytes_str m self bs reset = Ret (Err ConversionSyntax, d)) \/
  (m = Debug /\ from_bytes_str m self bs reset = Panic POverflow).
Proof.
  intros m self bs reset W MD. destruct (parse_cases m self reset bs W MD) as [(n & d & EB & OK & _ & E & PD)|(_ & [H|(H & _ & E)])].
  - left. exists n, d. split; [exact OK|]. split; [exact EB|]. split; [exact E|apply PD].
  - right. left. eexists. exact H.
  - right. right. split; [exact H|exact E].
Qed.
Print Assumptions C04_parsing_is_total_and_exact_partial.
Example C04_cases : mantissa_digits (bytes "1.5e-2") <= 127 /\ (exists d, from_bytes_str Debug zero (bytes "1.5e-2") true = Ret (Ok tt, d)) /\
  from_bytes_str Debug zero (bytes "1.5e") true = Ret (Err ConversionSyntax, zero) /\
  from_bytes_str Debug zero (bytes "1.5e2222222222") true = Panic POverflow.
Proof. split; [vm_compute; discriminate|]. split; [eexists; vm_compute; reflexivity|]. split; vm_compute; reflexivity. Qed.

(** C05: with [reset] the target does not matter at all. *)
Theorem C05_reset_ignores_the_target_partial : forall m t1 t2 bs, from_bytes_str m t1 bs true = from_bytes_str m t2 bs true.
Proof. reflexivity. Qed.
Print Assumptions C05_reset_ignores_the_target_partial.
(** Without [reset] the number, the sign and the digit counts do not depend on it ... *)
Theorem C05_same_number_partial : forall m t1 t2 bs d, wf t1 -> wf t2 -> mantissa_digits bs <= 127 ->
  from_bytes_str m t1 bs false = Ret (Ok tt, d) ->
  exists d', from_bytes_str m t2 bs false = Ret (Ok tt, d') /\ (value d' == value d)%Q /\ neg d' = neg d /\
    int_digits d' = int_digits d /\ frac_digits d' = frac_digits d.
Proof. exact parse_targets. Qed.
Print Assumptions C05_same_number_partial.
Example C05_example : let t1 := dec "-123456789012.5" in let t2 := dec "99999999999999999999" in wf t1 /\ wf t2 /\ mantissa_digits (bytes "-1.5") <= 127 /\
  exists d, from_bytes_str Debug t1 (bytes "-1.5") false = Ret (Ok tt, d) /\ to_string Debug d (-1) = Ret (bytes "-1.5").
Proof. cbv zeta. split; [hyps|]. split; [hyps|]. split; [vm_compute; discriminate|]. eexists. split; [vm_compute; reflexivity|]. vm_compute. reflexivity. Qed.
(** ... but the units above the declared ones keep the old digits, which
    [is_zero] looks at: a parsed zero that is not zero. *)
Theorem C05_stale_units_refuted : exists t1 t2 bs d1 d2, wf t1 /\ wf t2 /\ clean t1 /\ clean t2 /\
  (forall m, from_bytes_str m t1 bs false = Ret (Ok tt, d1) /\ from_bytes_str m t2 bs false = Ret (Ok tt, d2)) /\
  (value d1 == 0)%Q /\ (value d2 == 0)%Q /\ is_zero d1 = false /\ is_zero d2 = true.
Proof.
  exists (dec "1000000000000000000"), zero, (bytes "0"). eexists. eexists. split; [wfd|]. split; [wfd|]. split; [cleand|]. split; [cleand|].
  split; [intros [|]; split; vm_compute; reflexivity|]. repeat split; vm_compute; reflexivity.
Qed.
Print Assumptions C05_stale_units_refuted.

(** C06 *)
Theorem C06_failed_parse : forall m self bs reset e d, from_bytes_str m self bs reset = Ret (Err e, d) ->
  e = ConversionSyntax /\ (reset = false -> d = self) /\ (reset = true -> d = zero /\ (value d == 0)%Q /\ neg d = false).
Proof.
  intros m self bs reset e d H. destruct (parse_err m self reset bs e d H) as [E D]. split; [exact E|]. subst d. unfold tgt.
  split; intros ->; [reflexivity|]. repeat split; reflexivity.
Qed.
Print Assumptions C06_failed_parse.
Example C06_example : from_bytes_str Debug (dec "7.5") (bytes "1x") false = Ret (Err ConversionSyntax, dec "7.5").
Proof. vm_compute. reflexivity. Qed.

(** C07: the limit of 65 digits holds for every accepted string (also for
    strings on which the digit counter wrapped) ... *)
Theorem C07_digit_limit_partial : forall m self bs reset d, from_bytes_str m self bs reset = Ret (Ok tt, d) ->
  int_digits d + frac_digits d <= 65.
Proof. intros m self bs reset d. exact (parse_digits m self reset bs d). Qed.
Print Assumptions C07_digit_limit_partial.
Example C07_example : exists d, from_bytes_str Release zero (map digit_byte (repeat 7 65)) true = Ret (Ok tt, d) /\ int_digits d + frac_digits d = 65.
Proof. eexists. split; [vm_compute; reflexivity|]. vm_compute. reflexivity. Qed.
(** ... the limit of 30 fractional digits does not. *)
Theorem C07_fraction_limit_refuted : exists bs d, (forall m, from_str m bs = Ret (Ok d)) /\ frac_digits d = 65.
Proof.
  exists (bytes ".12345678901234567890123456789012345678901234567890123456789012345"). eexists. split.
  - intros [|]; vm_compute; reflexivity.
  - reflexivity.
Qed.
Print Assumptions C07_fraction_limit_refuted.

(** C10 *)
Theorem C10_printing_then_parsing : forall m d s, wf d -> nohidden d -> to_string m d (-1) = Ret s ->
  mantissa_digits s <= 65 ->
  exists d', from_str m s = Ret (Ok d') /\ (value d' == value d)%Q /\ neg d' = neg d /\ frac_digits d' = frac_digits d /\
    cmp m d' d = Ret Eq /\ eq m d' d = Ret true.
Proof. exact print_parse_eq. Qed.
Print Assumptions C10_printing_then_parsing.
(** In terms of the decimal: one digit before the point is always printed. *)
Theorem C10_declared_digits_suffice : forall m d, wf d -> tight d -> Z.max 1 (int_digits d) + frac_digits d <= 65 ->
  exists s, to_string m d (-1) = Ret s /\ mantissa_digits s <= 65.
Proof.
  intros m d W T L. rewrite to_string_printed by exact W. eexists. split; [reflexivity|].
  eapply Z.le_trans; [|exact L]. apply (printed_len m d _ W T). apply to_string_printed, W.
Qed.
Print Assumptions C10_declared_digits_suffice.
Example C10_example : let d := dec "-0012.50" in wf d /\ nohidden d /\ tight d /\ to_string Debug d (-1) = Ret (bytes "-12.50") /\
  mantissa_digits (bytes "-12.50") <= 65.
Proof. hyps. Qed.

(** C11 *)
Theorem C11_parsing_then_printing : forall m n, numeral_ok n -> n_exp n = None -> zlength (n_int n ++ n_frac n) <= 65 ->
  exists d n', from_str m (numeral_bytes n) = Ret (Ok d) /\ to_string m d (-1) = Ret (numeral_bytes n') /\ canonical n' /\
    is_minus (n_sign n') = is_minus (n_sign n) /\ n_frac n' = n_frac n /\ digits_value (n_int n') = digits_value (n_int n) /\
    (canonical n -> n' = n).
Proof. exact parse_print_plain. Qed.
Print Assumptions C11_parsing_then_printing.
Theorem C11_exponents_are_expanded : forall m n, numeral_ok n -> -30 <= numeral_exp n <= 65 -> numeral_digits n <= 65 ->
  exists d n', from_str m (numeral_bytes n) = Ret (Ok d) /\ to_string m d (-1) = Ret (numeral_bytes n') /\ canonical n' /\
    is_minus (n_sign n') = is_minus (n_sign n) /\ zlength (n_frac n') = numeral_frac n /\ (numeral_value n' == numeral_value n)%Q.
Proof. intros m n OK WE WD. exact (parse_print m n OK (conj WE WD)). Qed.
Print Assumptions C11_exponents_are_expanded.
Example C11_example : let n := mknum (Some false) [0; 0; 7] true [5; 0] None in
  numeral_bytes n = bytes "+007.50" /\ numeral_ok n /\ canonical (mknum None [7] true [5; 0] None) /\
  (exists d, from_str Debug (numeral_bytes n) = Ret (Ok d) /\ to_string Debug d (-1) = Ret (bytes "7.50")).
Proof.
  split; [reflexivity|]. split; [|split].
  - repeat split; cbn; repeat constructor; try discriminate; unfold is_digit; cbn; try discriminate.
  - repeat split; cbn; repeat constructor; try discriminate; unfold is_digit; cbn; try discriminate.
  - eexists. split; [vm_compute; reflexivity|]. vm_compute. reflexivity.
Qed.

(** C50: sums and differences, from string to string. *)
Theorem C50_end_to_end_sums : forall m s t, numeral_ok s -> numeral_ok t -> n_exp s = None -> n_exp t = None ->
  zlength (n_int s) <= 30 -> zlength (n_frac s) <= 30 -> zlength (n_int t) <= 30 -> zlength (n_frac t) <= 30 ->
  exists a b r n, from_str m (numeral_bytes s) = Ret (Ok a) /\ from_str m (numeral_bytes t) = Ret (Ok b) /\
    add_to m a b zero = Ret (Ok tt, r) /\ to_string m r (-1) = Ret (numeral_bytes n) /\ canonical n /\
    (numeral_value n == numeral_value s + numeral_value t)%Q /\
    (~ (numeral_value s == 0)%Q -> ~ (numeral_value t == 0)%Q -> zlength (n_frac n) = Z.max (zlength (n_frac s)) (zlength (n_frac t))).
Proof. intros m s t OS OT XS XT IS FS IT FT. apply end_to_end_add; repeat split; try assumption; apply OS || apply OT. Qed.
Print Assumptions C50_end_to_end_sums.
Theorem C50_end_to_end_differences : forall m s t, numeral_ok s -> numeral_ok t -> n_exp s = None -> n_exp t = None ->
  zlength (n_int s) <= 30 -> zlength (n_frac s) <= 30 -> zlength (n_int t) <= 30 -> zlength (n_frac t) <= 30 ->
  exists a b r n, from_str m (numeral_bytes s) = Ret (Ok a) /\ from_str m (numeral_bytes t) = Ret (Ok b) /\
    sub_to m a b zero = Ret (Ok tt, r) /\ to_string m r (-1) = Ret (numeral_bytes n) /\ canonical n /\
    (numeral_value n == numeral_value s - numeral_value t)%Q /\
    (~ (numeral_value s == 0)%Q -> ~ (numeral_value t == 0)%Q -> zlength (n_frac n) = Z.max (zlength (n_frac s)) (zlength (n_frac t))).
Proof. intros m s t OS OT XS XT IS FS IT FT. apply end_to_end_sub; repeat split; try assumption; apply OS || apply OT. Qed.
Print Assumptions C50_end_to_end_differences.
Example C50_sums_example : exists a b r,
  from_str Debug (bytes "-999999999999999999999999999999.5") = Ret (Ok a) /\ from_str Debug (bytes "-0.50") = Ret (Ok b) /\
  add_to Debug a b zero = Ret (Ok tt, r) /\ to_string Debug r (-1) = Ret (bytes "-1000000000000000000000000000000.00").
Proof. do 3 eexists. split; [vm_compute; reflexivity|]. split; [vm_compute; reflexivity|]. split; [vm_compute; reflexivity|]. vm_compute. reflexivity. Qed.
