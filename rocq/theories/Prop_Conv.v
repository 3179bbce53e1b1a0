(** * Properties: integer conversions and hash (C16-C21). *)
From Coq Require Import ZArith List Bool String QArith Qabs.
From Verif Require Import Rust Model_Base Model_Cmp Model_Round Model_Arith Model_Decimal Spec Lib Basics RoundQ Conv Witness.
Import ListNotations.
Open Scope Z_scope.

(** C16 is false: equal decimals may feed different data to the hasher. *)
Theorem C16_refuted : exists a b ha hb, wf a /\ wf b /\ a = dec "1" /\ b = dec "1.0" /\
  (forall m, eq m a b = Ret true) /\ (forall m, hash m a = Ret ha) /\ (forall m, hash m b = Ret hb) /\ ha <> hb.
Proof.
  exists (dec "1"), (dec "1.0"). do 2 eexists. split; [hyps|]. split; [hyps|]. split; [reflexivity|]. split; [reflexivity|].
  split; [intros []; vm_compute; reflexivity|].
  split; [intros []; vm_compute; reflexivity|]. split; [intros []; vm_compute; reflexivity|]. discriminate.
Qed.
Print Assumptions C16_refuted.

(** Hash respects == among decimals with the same numbers of units. *)
Theorem C16_same_shape_partial : forall m a b ha hb, wf a -> wf b -> hash m a = Ret ha -> hash m b = Ret hb ->
  iu a = iu b -> fu a = fu b -> eq m a b = Ret true -> ha = hb.
Proof. intros m a b ha hb Wa Wb Ha Hb EI EF. apply (proj2 (hash_feed m a b ha hb Wa Wb Ha Hb) EI EF). Qed.
Print Assumptions C16_same_shape_partial.
Example C16_example : let a := dec "-00012.50" in let b := dec "-12.500" in wf a /\ wf b /\ iu a = iu b /\ fu a = fu b /\ eq Debug a b = Ret true /\
  exists h, hash Debug a = Ret h /\ hash Debug b = Ret h.
Proof. cbv zeta. split; [hyps|]. split; [hyps|]. split; [vm_compute; reflexivity|]. split; [vm_compute; reflexivity|]. split; [vm_compute; reflexivity|]. eexists. split; [vm_compute; reflexivity|]. vm_compute. reflexivity. Qed.

(** C17 *)
Theorem C17_hash_feed : forall m a b ha hb, wf a -> wf b -> hash m a = Ret ha -> hash m b = Ret hb ->
  (ha = hb -> eq m a b = Ret true) /\
  (iu a = iu b -> fu a = fu b -> (eq m a b = Ret true <-> ha = hb)).
Proof. exact hash_feed. Qed.
Print Assumptions C17_hash_feed.
(** hash never panics; what it feeds. *)
Theorem C17_hash_returns : forall m a, wf a -> hash m a =
  Ret (WriteU8 (if neg a then 1 else 0) :: WriteU8 (iu a) :: WriteU8 (fu a)
       :: map WriteU32 (firstn (Z.to_nat (iu a + fu a)) (fd_lsu a))).
Proof. exact hash_ok. Qed.
Print Assumptions C17_hash_returns.

Example C17_example : let a := dec "-00012.50" in let b := dec "-12.500" in wf a /\ wf b /\ a <> b /\
  iu a = iu b /\ fu a = fu b /\ eq Debug a b = Ret true /\ hash Debug a = hash Debug b.
Proof. hyps. Qed.

(** C18 *)
Theorem C18_from_i64_is_exact : forall m n, -9223372036854775808 <= n <= 9223372036854775807 ->
  exists d, from_i64 m n = Ret d /\
    wf d /\ clean d /\ tight d /\ nohidden d /\ ~ negzero d /\
    (value d == inject_Z n)%Q /\ frac_digits d = 0 /\ neg d = (n <? 0).
Proof. exact from_i64_ok. Qed.
Print Assumptions C18_from_i64_is_exact.
Example C18_example : exists d, from_i64 Debug (-9223372036854775808) = Ret d /\ Model_Serde.to_string Debug d (-1) = Ret (Tests.bytes "-9223372036854775808").
Proof. eexists. split; [vm_compute; reflexivity|]. vm_compute. reflexivity. Qed.
Theorem C18_from_u64_is_exact : forall m n, 0 <= n <= 18446744073709551615 ->
  exists d, from_u64 m n = Ret d /\
    (wf d /\ clean d /\ tight d /\ nohidden d /\ ~ negzero d /\
     (value d == inject_Z n)%Q /\ frac_digits d = 0 /\ neg d = (n <? 0)) /\ fd_intg d = 9 * iu d.
Proof. exact from_u64_ok. Qed.
Print Assumptions C18_from_u64_is_exact.

(** C19 *)
Theorem C19_as_i64 : forall m a, wf a -> clean a ->
  ((inject_Z (-9223372036854775808) <= value a /\ value a <= inject_Z 9223372036854775807)%Q ->
     as_i64 m a = Ret (Ok (round_away (value a)))) /\
  (~ (inject_Z (-9223372036854775808) <= value a /\ value a <= inject_Z 9223372036854775807)%Q ->
     as_i64 m a = Ret (Err ExceedsConversionTargetRange)).
Proof. exact as_i64_ok. Qed.
Print Assumptions C19_as_i64.

Example C19_example : let a := dec "-9223372036854775807.5" in let b := dec "9223372036854775807.1" in wf a /\ clean a /\ wf b /\ clean b /\
  as_i64 Debug a = Ret (Ok (-9223372036854775808)) /\ as_i64 Debug b = Ret (Err ExceedsConversionTargetRange) /\
  as_i64 Debug (dec "2.5") = Ret (Ok 3) /\ as_i64 Debug (dec "-0.4") = Ret (Ok 0).
Proof. hyps. Qed.

(** C20 *)
Theorem C20_as_u64 : forall m a, wf a -> clean a ->
  (neg a = false /\ (value a <= inject_Z 18446744073709551615)%Q -> as_u64 m a = Ret (Ok (round_away (value a)))) /\
  (~ (neg a = false /\ (value a <= inject_Z 18446744073709551615)%Q) -> as_u64 m a = Ret (Err ExceedsConversionTargetRange)).
Proof. exact as_u64_ok. Qed.
Print Assumptions C20_as_u64.

Example C20_example : let a := dec "18446744073709551614.5" in wf a /\ clean a /\
  as_u64 Debug a = Ret (Ok 18446744073709551615) /\ as_u64 Debug (dec "-0") = Ret (Err ExceedsConversionTargetRange) /\
  as_u64 Release (dec "18446744073709551616") = Ret (Err ExceedsConversionTargetRange).
Proof. hyps. Qed.

(** C21 *)
Theorem C21_i64_round_trip : forall m n, -9223372036854775808 <= n <= 9223372036854775807 ->
  exists d, from_i64 m n = Ret d /\ as_i64 m d = Ret (Ok n).
Proof. exact i64_roundtrip. Qed.
Print Assumptions C21_i64_round_trip.
Theorem C21_u64_round_trip : forall m n, 0 <= n <= 18446744073709551615 ->
  exists d, from_u64 m n = Ret d /\ as_u64 m d = Ret (Ok n).
Proof. exact u64_roundtrip. Qed.
Print Assumptions C21_u64_round_trip.
Theorem C21_comparison_of_integers : forall m n k, -9223372036854775808 <= n <= 9223372036854775807 ->
  -9223372036854775808 <= k <= 9223372036854775807 ->
  exists a b, from_i64 m n = Ret a /\ from_i64 m k = Ret b /\ cmp m a b = Ret (Z.compare n k).
Proof.
  intros m n k Hn Hk. destruct (from_i64_ok m n Hn) as (a & Ea & Ia). destruct (from_i64_ok m k Hk) as (b & Eb & Ib).
  exists a, b. split; [exact Ea|]. split; [exact Eb|]. apply cmp_integers; assumption.
Qed.
Print Assumptions C21_comparison_of_integers.
Example C21_example : exists a b, from_i64 Debug (-9223372036854775808) = Ret a /\ from_i64 Debug 7 = Ret b /\ cmp Debug a b = Ret Lt /\ as_i64 Debug a = Ret (Ok (-9223372036854775808)).
Proof. do 2 eexists. split; [vm_compute; reflexivity|]. split; [vm_compute; reflexivity|]. split; vm_compute; reflexivity. Qed.
