(** * Properties: zero divisors (C33), operators (C45), build profiles (C48). *)
From Coq Require Import ZArith List Bool String QArith.
From Verif Require Import Rust Model_Base Model_Cmp Model_Round Model_Decimal Model_Arith Model_Serde Spec Spec_Rem Basics Agree Agree2 DivBasics Tests Witness.
Import ListNotations.
Open Scope Z_scope.

(** C33: division by zero is an error, for every dividend, every increment,
    and nothing else is this error. *)
Theorem C33_zero_divisors_are_reported : forall m a b res f, wf a -> wf b -> (value b == 0)%Q ->
  div_to m a b res f = Ret (Err DivisionByZero, zero) /\ rem_to m a b res = Ret (Err DivisionByZero, zero).
Proof. intros m a b res f Ha Hb V. split; [apply div_dbz|apply rem_dbz]; assumption. Qed.
Print Assumptions C33_zero_divisors_are_reported.
Theorem C33_only_zero_divisors_are_reported : forall m a b res f d, wf b ->
  div_to m a b res f = Ret (Err DivisionByZero, d) \/ rem_to m a b res = Ret (Err DivisionByZero, d) -> (value b == 0)%Q.
Proof. intros m a b res f d Hb [H|H]; [exact (div_not_dbz m a b res f d Hb H)|exact (rem_not_dbz m a b res d Hb H)]. Qed.
Print Assumptions C33_only_zero_divisors_are_reported.
Theorem C33_operators_panic : forall m a b, wf a -> wf b -> (value b == 0)%Q ->
  op_div m a b = Panic POperator /\ op_rem m a b = Panic POperator.
Proof.
  intros m a b Ha Hb V. unfold op_div, op_rem. rewrite (div_dbz m a b op_res DIV_INCR_FRAC Ha Hb V), (rem_dbz m a b op_res Ha Hb V).
  split; reflexivity.
Qed.
Print Assumptions C33_operators_panic.
Example C33_example : let a := dec "-12.5" in let b := dec "-0.000" in wf a /\ wf b /\ (value b == 0)%Q /\ neg b = true /\
  wf (dec "0.0000000001") /\ (exists d, div_to Debug a (dec "0.0000000001") zero 4 = Ret (Ok tt, d)).
Proof. hyps. eexists. vm_compute. reflexivity. Qed.

(** C45: an operator returns what the function stores if that returns Ok, and
    otherwise panics; whatever [res] the function is given. *)
Theorem C45_operators_return : forall m a b d res,
  (op_add m a b = Ret d <-> add_to m a b res = Ret (Ok tt, d)) /\
  (op_sub m a b = Ret d <-> sub_to m a b res = Ret (Ok tt, d)) /\
  (op_mul m a b = Ret d <-> mul_to m a b res = Ret (Ok tt, d)) /\
  (op_div m a b = Ret d <-> div_to m a b res 4 = Ret (Ok tt, d)) /\
  (op_rem m a b = Ret d <-> rem_to m a b res = Ret (Ok tt, d)).
Proof.
  intros m a b d res. destruct (res_irrelevant m a b res op_res 4) as (E1 & E2 & E3 & E4 & E5 & _).
  rewrite E1, E2, E3, E4, E5.
  assert (U : forall o, unwrap_op o = Ret d <-> o = Ret (Ok tt, d)).
  { intros [[[[]|e] x]|p]; cbn; split; intros H; try discriminate; injection H as <-; reflexivity. }
  repeat split; apply U.
Qed.
Print Assumptions C45_operators_return.
Theorem C45_operators_panic : forall m a b res,
  ((exists p, op_add m a b = Panic p) <-> (exists e d, add_to m a b res = Ret (Err e, d)) \/ (exists p, add_to m a b res = Panic p)) /\
  ((exists p, op_sub m a b = Panic p) <-> (exists e d, sub_to m a b res = Ret (Err e, d)) \/ (exists p, sub_to m a b res = Panic p)) /\
  ((exists p, op_mul m a b = Panic p) <-> (exists e d, mul_to m a b res = Ret (Err e, d)) \/ (exists p, mul_to m a b res = Panic p)) /\
  ((exists p, op_div m a b = Panic p) <-> (exists e d, div_to m a b res 4 = Ret (Err e, d)) \/ (exists p, div_to m a b res 4 = Panic p)) /\
  ((exists p, op_rem m a b = Panic p) <-> (exists e d, rem_to m a b res = Ret (Err e, d)) \/ (exists p, rem_to m a b res = Panic p)).
Proof.
  intros m a b res. destruct (res_irrelevant m a b res op_res 4) as (E1 & E2 & E3 & E4 & E5 & _).
  rewrite E1, E2, E3, E4, E5.
  assert (U : forall o, (exists p, unwrap_op o = Panic p) <-> (exists e d, o = Ret (Err e, d)) \/ (exists p, o = Panic p)).
  { intros [[[[]|e] x]|p]; cbn; split; intros H; eauto.
    - destruct H as [p H]; discriminate.
    - destruct H as [(e & d & H)|(p & H)]; discriminate. }
  repeat split; apply U.
Qed.
Print Assumptions C45_operators_panic.
Example C45_example : let a := dec "12.5" in let b := dec "-0.5" in
  (exists d, op_add Debug a b = Ret d /\ to_string Debug d (-1) = Ret (bytes "12.0")) /\
  (exists d, op_div Debug a b = Ret d /\ to_string Debug d (-1) = Ret (bytes "-25.000000000000000000")) /\
  op_div Debug a zero = Panic POperator.
Proof. split; [|split]; try (eexists; split; [vm_compute; reflexivity|]); vm_compute; reflexivity. Qed.

(** C48: whatever a call returns in a debug build, it returns in a release
    build. No hypothesis on the arguments. *)
Theorem C48_builds_agree : forall a b t res f bs buf reset,
  (forall y, from_bytes_str Debug t bs reset = Ret y -> from_bytes_str Release t bs reset = Ret y) /\
  (forall y, from_ascii_str Debug t bs reset = Ret y -> from_ascii_str Release t bs reset = Ret y) /\
  (forall y, from_str Debug bs = Ret y -> from_str Release bs = Ret y) /\
  (forall y, to_string Debug a f = Ret y -> to_string Release a f = Ret y) /\
  (forall y, append_str_buf Debug a buf f = Ret y -> append_str_buf Release a buf f = Ret y) /\
  (forall y, from_i64 Debug f = Ret y -> from_i64 Release f = Ret y) /\
  (forall y, from_u64 Debug f = Ret y -> from_u64 Release f = Ret y) /\
  (forall y, as_i64 Debug a = Ret y -> as_i64 Release a = Ret y) /\
  (forall y, as_u64 Debug a = Ret y -> as_u64 Release a = Ret y) /\
  (forall y, hash Debug a = Ret y -> hash Release a = Ret y) /\
  (forall y, cmp Debug a b = Ret y -> cmp Release a b = Ret y) /\
  (forall y, eq Debug a b = Ret y -> eq Release a b = Ret y) /\
  (forall y, lt Debug a b = Ret y -> lt Release a b = Ret y) /\
  (forall y, gt Debug a b = Ret y -> gt Release a b = Ret y) /\
  (forall y, round Debug a f = Ret y -> round Release a f = Ret y) /\
  (forall y, round_to Debug a res f = Ret y -> round_to Release a res f = Ret y) /\
  (forall y, add_to Debug a b res = Ret y -> add_to Release a b res = Ret y) /\
  (forall y, sub_to Debug a b res = Ret y -> sub_to Release a b res = Ret y) /\
  (forall y, mul_to Debug a b res = Ret y -> mul_to Release a b res = Ret y) /\
  (forall y, div_to Debug a b res f = Ret y -> div_to Release a b res f = Ret y) /\
  (forall y, rem_to Debug a b res = Ret y -> rem_to Release a b res = Ret y).
Proof.
  intros a b t res f bs buf reset.
  repeat apply conj; [..|apply simr_ret, s_rem_to]; apply sim_ret;
    first [apply s_from_bytes_str
    |apply s_from_str
    |apply s_to_string
    |apply s_append_str_buf
    |apply s_from_i64
    |apply s_from_u64
    |apply s_as_i64
    |apply s_as_u64
    |apply s_hash
    |apply s_cmp
    |apply s_eq
    |apply s_lt
    |apply s_gt
    |apply s_round
    |apply s_round_to
    |apply s_add_to
    |apply s_sub_to
    |apply s_mul_to
    |apply s_div_to].
Qed.
Print Assumptions C48_builds_agree.
(** Panics too: a debug build does what a release build does (the same value,
    or the same panic), unless one of the checks stops it that only debug builds make. *)
Definition same_or_failed_check {A} (debug release : outcome A) : Prop :=
  debug = release \/ debug = Panic POverflow \/ debug = Panic PAssert.
Theorem C48_debug_is_release_with_checks : forall a b t res f bs buf reset,
  same_or_failed_check (from_bytes_str Debug t bs reset) (from_bytes_str Release t bs reset) /\
  same_or_failed_check (from_ascii_str Debug t bs reset) (from_ascii_str Release t bs reset) /\
  same_or_failed_check (from_str Debug bs) (from_str Release bs) /\
  same_or_failed_check (to_string Debug a f) (to_string Release a f) /\
  same_or_failed_check (append_str_buf Debug a buf f) (append_str_buf Release a buf f) /\
  same_or_failed_check (from_i64 Debug f) (from_i64 Release f) /\
  same_or_failed_check (from_u64 Debug f) (from_u64 Release f) /\
  same_or_failed_check (as_i64 Debug a) (as_i64 Release a) /\
  same_or_failed_check (as_u64 Debug a) (as_u64 Release a) /\
  same_or_failed_check (hash Debug a) (hash Release a) /\
  same_or_failed_check (cmp Debug a b) (cmp Release a b) /\
  same_or_failed_check (eq Debug a b) (eq Release a b) /\
  same_or_failed_check (lt Debug a b) (lt Release a b) /\
  same_or_failed_check (gt Debug a b) (gt Release a b) /\
  same_or_failed_check (round Debug a f) (round Release a f) /\
  same_or_failed_check (round_to Debug a res f) (round_to Release a res f) /\
  same_or_failed_check (add_to Debug a b res) (add_to Release a b res) /\
  same_or_failed_check (sub_to Debug a b res) (sub_to Release a b res) /\
  same_or_failed_check (mul_to Debug a b res) (mul_to Release a b res) /\
  same_or_failed_check (div_to Debug a b res f) (div_to Release a b res f) /\
  same_or_failed_check (op_add Debug a b) (op_add Release a b) /\
  same_or_failed_check (op_sub Debug a b) (op_sub Release a b) /\
  same_or_failed_check (op_mul Debug a b) (op_mul Release a b) /\
  same_or_failed_check (op_div Debug a b) (op_div Release a b).
Proof.
  intros a b t res f bs buf reset. repeat apply conj; try apply s_unwrap;
    first [apply s_from_bytes_str|apply s_from_str|apply s_to_string|apply s_append_str_buf|apply s_from_i64|apply s_from_u64|apply s_as_i64|apply s_as_u64|apply s_hash|apply s_cmp|apply s_eq|apply s_lt|apply s_gt|apply s_round|apply s_round_to|apply s_add_to|apply s_sub_to|apply s_mul_to|apply s_div_to].
Qed.
Print Assumptions C48_debug_is_release_with_checks.
(** The remainder has one more check that only debug builds make: it reads an
    array element (src/arith.rs:903), possibly out of bounds. *)
Theorem C48_remainder_with_checks : forall a b res,
  (same_or_failed_check (rem_to Debug a b res) (rem_to Release a b res) \/ rem_to Debug a b res = Panic PIndex) /\
  (same_or_failed_check (op_rem Debug a b) (op_rem Release a b) \/ op_rem Debug a b = Panic PIndex).
Proof. intros a b res. split; [apply s_rem_to|apply s_unwrap_rem, s_rem_to]. Qed.
Print Assumptions C48_remainder_with_checks.
(** That read is in bounds unless the dividend is at least 10^72, and the
    divisor of nine fractional groups at least 10^-72. *)
Theorem C48_remainder_with_room : forall a b res, wf a -> wf b -> ~ too_long Debug a b ->
  same_or_failed_check (rem_to Debug a b res) (rem_to Release a b res) /\ same_or_failed_check (op_rem Debug a b) (op_rem Release a b).
Proof. intros a b res Ha Hb R. split; [|apply s_unwrap]; apply s_rem_to_room; assumption. Qed.
Print Assumptions C48_remainder_with_room.
(** All four cases occur: the same value, the same panic, a failed check, and
    (remainder only, no room) a failed read. *)
Example C48_checks_example : let huge := mkfd 81 0 (repeat 999999999 9) in let big := mkfd 81 0 [0; 0; 0; 0; 0; 0; 0; 0; 7] in let tiny := mkfd 0 81 [7; 50000000; 0; 0; 0; 0; 0; 0; 0] in
  rem_to Debug (dec "7.5") (dec "2") zero = rem_to Release (dec "7.5") (dec "2") zero /\
  (add_to Debug huge huge zero = Panic PIndex /\ add_to Release huge huge zero = Panic PIndex) /\
  (op_mul Debug (dec ".5") (dec ".5") = Panic PAssert /\ op_mul Release (dec ".5") (dec ".5") <> Panic PAssert) /\
  (wf big /\ wf tiny /\ too_long Debug big tiny /\ rem_to Debug big tiny zero = Panic PIndex /\ exists d, rem_to Release big tiny zero = Ret (Ok tt, d)).
Proof.
  cbv zeta. split; [vm_compute; reflexivity|]. split; [split; vm_compute; reflexivity|]. split; [split; [vm_compute; reflexivity|vm_compute; discriminate]|].
  split; [apply wfb_wf; vm_compute; reflexivity|]. split; [apply wfb_wf; vm_compute; reflexivity|]. split; [split; [reflexivity|split; [vm_compute; discriminate|split; [vm_compute; discriminate|left; reflexivity]]]|]. split; [vm_compute; reflexivity|]. eexists. vm_compute. reflexivity.
Qed.
Theorem C48_operators_agree : forall a b y,
  (op_add Debug a b = Ret y -> op_add Release a b = Ret y) /\ (op_sub Debug a b = Ret y -> op_sub Release a b = Ret y) /\
  (op_mul Debug a b = Ret y -> op_mul Release a b = Ret y) /\ (op_div Debug a b = Ret y -> op_div Release a b = Ret y) /\
  (op_rem Debug a b = Ret y -> op_rem Release a b = Ret y).
Proof.
  intros a b y. repeat apply conj; [..|apply simr_ret, s_unwrap_rem, s_rem_to]; apply sim_ret, s_unwrap; [apply s_add_to|apply s_sub_to|apply s_mul_to|apply s_div_to].
Qed.
Print Assumptions C48_operators_agree.
(** The converse fails: [.5 * .5] is 0.25 in a release build only. *)
Example C48_example : let a := dec ".5" in
  (exists d, op_mul Release a a = Ret d /\ to_string Release d (-1) = Ret (bytes "0.25")) /\ op_mul Debug a a = Panic PAssert /\
  (exists d, op_div Debug a a = Ret d).
Proof.
  split; [|split].
  - eexists. split; [vm_compute; reflexivity|]. vm_compute. reflexivity.
  - vm_compute. reflexivity.
  - eexists. vm_compute. reflexivity.
Qed.
