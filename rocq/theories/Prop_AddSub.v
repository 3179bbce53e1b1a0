(** * Properties: addition and subtraction (C22-C27, C45 in part, C49, C51). *)
From Coq Require Import ZArith List Bool String QArith Qabs.
From Verif Require Import Rust Model_Base Model_Cmp Model_Round Model_Arith Spec Lib Cmp Sign AddTo AddSubQ Basics Witness.
Import ListNotations.
Open Scope Z_scope.

(** C22: a returning addition is exact and Ok. *)
Theorem C22_addition_is_exact : forall m a b res rs d, wf a -> wf b ->
  add_to m a b res = Ret (rs, d) ->
  rs = Ok tt /\ wf d /\ (value d == value a + value b)%Q /\
  (~ (value a == 0)%Q -> ~ (value b == 0)%Q -> frac_digits d = Z.max (frac_digits a) (frac_digits b)).
Proof. exact add_exact. Qed.
Print Assumptions C22_addition_is_exact.

(** ... and it returns exactly when there is room (both build profiles). *)
Theorem C22_addition_returns_iff_room : forall m a b res, wf a -> wf b -> clean a -> clean b ->
  let n := Z.max (iu a) (iu b) + Z.max (fu a) (fu b) in
  ((exists o, add_to m a b res = Ret o) <->
   (value a == 0)%Q \/ (value b == 0)%Q \/
   (n <= 8 /\ (neg a <> neg b \/ n <= 7 \/
               (Qabs (value a) + Qabs (value b) < inject_Z (base ^ Z.max (iu a) (iu b)))%Q))).
Proof. exact add_returns. Qed.
Print Assumptions C22_addition_returns_iff_room.

Example C22_example : let a := dec "999999999999999999.00000000005" in let b := dec "-0.7" in
  wf a /\ wf b /\ clean a /\ clean b /\
  (exists d, add_to Debug a b zero = Ret (Ok tt, d)) /\
  (exists d, add_to Debug a a zero = Ret (Ok tt, d) /\ iu d = 3).
Proof. hyps; eexists; vm_compute; try split; reflexivity. Qed.

(** C23: the same for subtraction. *)
Theorem C23_subtraction_is_exact : forall m a b res rs d, wf a -> wf b ->
  sub_to m a b res = Ret (rs, d) ->
  rs = Ok tt /\ wf d /\ (value d == value a - value b)%Q /\
  (~ (value a == 0)%Q -> ~ (value b == 0)%Q -> frac_digits d = Z.max (frac_digits a) (frac_digits b)).
Proof. exact sub_exact. Qed.
Print Assumptions C23_subtraction_is_exact.

Theorem C23_subtraction_returns_iff_room : forall m a b res, wf a -> wf b -> clean a -> clean b ->
  let n := Z.max (iu a) (iu b) + Z.max (fu a) (fu b) in
  ((exists o, sub_to m a b res = Ret o) <->
   (value a == 0)%Q \/ (value b == 0)%Q \/
   (n <= 8 /\ (neg a = neg b \/ n <= 7 \/
               (Qabs (value a) + Qabs (value b) < inject_Z (base ^ Z.max (iu a) (iu b)))%Q))).
Proof. exact sub_returns. Qed.
Print Assumptions C23_subtraction_returns_iff_room.

Example C23_example : let a := dec "1.00000000005" in let b := dec "999999999999" in
  wf a /\ wf b /\ clean a /\ clean b /\ (exists d, sub_to Debug a b zero = Ret (Ok tt, d) /\ neg d = true).
Proof. hyps; eexists; vm_compute; try split; reflexivity. Qed.

(** The shape of the operands is kept: nothing stored beyond the declared
    units, no more digits than declared. *)
Theorem C22_addition_keeps_shape : forall m a b res rs d, wf a -> wf b -> add_to m a b res = Ret (rs, d) ->
  (clean a -> clean b -> clean d) /\ (tight a -> tight b -> tight d) /\ (nohidden a -> nohidden b -> nohidden d).
Proof. exact add_keeps. Qed.
Print Assumptions C22_addition_keeps_shape.
Theorem C23_subtraction_keeps_shape : forall m a b res rs d, wf a -> wf b -> sub_to m a b res = Ret (rs, d) ->
  (clean a -> clean b -> clean d) /\ (tight a -> tight b -> tight d) /\ (nohidden a -> nohidden b -> nohidden d).
Proof. exact sub_keeps. Qed.
Print Assumptions C23_subtraction_keeps_shape.

(** C24 is false: both panic (index out of bounds) on parsed decimals of 65
    digits, in both build profiles; also a carry out of eight units. *)
Theorem C24_overflow_is_an_error_refuted :
  exists a b, wf a /\ wf b /\ clean a /\ clean b /\
    forall m res, add_to m a b res = Panic PIndex /\ sub_to m b a res = Panic PIndex.
Proof.
  exists (dec "1000000000000000000000000000000000000.1000000000000000000000000001"), (dec "1").
  split; [wfd|]. split; [wfd|]. split; [cleand|]. split; [cleand|].
  intros [|] res; split; vm_compute; reflexivity.
Qed.
Print Assumptions C24_overflow_is_an_error_refuted.
Theorem C24_carry_panics_refuted :
  exists a b, wf a /\ wf b /\ clean a /\ clean b /\
    forall m res, add_to m a b res = Panic PIndex.
Proof.
  exists (dec "999999999999999999999999999999999999.0000000000000000000000000001"), (dec "1").
  split; [wfd|]. split; [wfd|]. split; [cleand|]. split; [cleand|].
  intros [|] res; vm_compute; reflexivity.
Qed.
Print Assumptions C24_carry_panics_refuted.

(** C24, the part that holds: never [Err]; no panic when the operands have at most
    seven units together. *)
Theorem C24_overflow_is_an_error_partial : forall m a b res, wf a -> wf b -> clean a -> clean b ->
  Z.max (iu a) (iu b) + Z.max (fu a) (fu b) <= 7 ->
  (exists d, add_to m a b res = Ret (Ok tt, d)) /\ (exists d, sub_to m a b res = Ret (Ok tt, d)).
Proof. exact add_sub_7. Qed.
Print Assumptions C24_overflow_is_an_error_partial.
Example C24_example : let a := dec "999999999999999999999999999.5" in let b := dec "-0.000000000000000000000001" in wf a /\ wf b /\ clean a /\ clean b /\
  Z.max (iu a) (iu b) + Z.max (fu a) (fu b) = 6.
Proof. cbv zeta. split; [hyps|]. split; [hyps|]. split; [hyps|]. split; [hyps|]. vm_compute. reflexivity. Qed.

(** C25 *)
Theorem C25_addition_commutes : forall m a b res x, wf a -> wf b -> clean a -> clean b ->
  ~ negzero a -> ~ negzero b -> add_to m a b res = Ret (Ok tt, x) ->
  exists y, add_to m b a res = Ret (Ok tt, y) /\ (value x == value y)%Q /\ eq m x y = Ret true.
Proof. exact add_comm. Qed.
Print Assumptions C25_addition_commutes.
Theorem C25_addition_associates : forall m a b c res ab abc bc abc', wf a -> wf b -> wf c ->
  clean a -> clean b -> clean c -> ~ negzero a -> ~ negzero b -> ~ negzero c ->
  add_to m a b res = Ret (Ok tt, ab) -> add_to m ab c res = Ret (Ok tt, abc) ->
  add_to m b c res = Ret (Ok tt, bc) -> add_to m a bc res = Ret (Ok tt, abc') ->
  (value abc == value abc')%Q /\ eq m abc abc' = Ret true.
Proof. exact add_assoc. Qed.
Print Assumptions C25_addition_associates.
Theorem C25_zero_is_neutral : forall m a z res, wf a -> wf z -> clean a -> clean z ->
  ~ negzero a -> ~ negzero z -> (value z == 0)%Q ->
  exists x y, add_to m a z res = Ret (Ok tt, x) /\ eq m x a = Ret true /\
    add_to m z a res = Ret (Ok tt, y) /\ eq m y a = Ret true.
Proof. exact add_zero. Qed.
Print Assumptions C25_zero_is_neutral.
Theorem C25_self_difference_is_zero : forall m a res rs x, wf a -> clean a -> ~ negzero a ->
  sub_to m a a res = Ret (rs, x) ->
  rs = Ok tt /\ (value x == 0)%Q /\ is_zero x = true /\ eq m x zero = Ret true.
Proof. exact sub_self. Qed.
Print Assumptions C25_self_difference_is_zero.
Theorem C25_subtraction_is_antisymmetric : forall m a b res x, wf a -> wf b -> clean a -> clean b ->
  ~ negzero a -> ~ negzero b -> sub_to m a b res = Ret (Ok tt, x) ->
  exists y, sub_to m b a res = Ret (Ok tt, y) /\ (value x == - value y)%Q /\
    (~ (value x == 0)%Q -> eq m (if neg y then set_pos y else set_neg y) x = Ret true).
Proof. exact sub_antisym. Qed.
Print Assumptions C25_subtraction_is_antisymmetric.
Theorem C25_subtraction_undoes_addition : forall m a b res s x, wf a -> wf b -> clean a -> clean b ->
  ~ negzero a -> ~ negzero b ->
  add_to m a b res = Ret (Ok tt, s) -> sub_to m s b res = Ret (Ok tt, x) -> eq m x a = Ret true.
Proof. exact add_sub_cancel. Qed.
Print Assumptions C25_subtraction_undoes_addition.

Example C25_example : let a := dec "12345678901.5" in let b := dec "-0.00000000007" in let c := dec "77" in
  wf a /\ wf b /\ wf c /\ clean a /\ clean b /\ clean c /\ ~ negzero a /\ ~ negzero b /\ ~ negzero c /\
  exists ab, add_to Debug a b zero = Ret (Ok tt, ab) /\ exists abc, add_to Debug ab c zero = Ret (Ok tt, abc) /\
  exists bc, add_to Debug b c zero = Ret (Ok tt, bc) /\ exists abc', add_to Debug a bc zero = Ret (Ok tt, abc') /\
  exists x, sub_to Debug ab b zero = Ret (Ok tt, x).
Proof.
  hyps.
  do 4 (eexists; split; [vm_compute; reflexivity|]). eexists. vm_compute; reflexivity.
Qed.

(** C26 (addition and subtraction). *)
Theorem C26_no_negative_zero_add : forall m a b res rs d, wf a -> wf b -> clean a -> clean b ->
  ~ negzero a -> ~ negzero b -> add_to m a b res = Ret (rs, d) -> ~ negzero d.
Proof. exact add_no_negzero. Qed.
Print Assumptions C26_no_negative_zero_add.
Theorem C26_no_negative_zero_sub : forall m a b res rs d, wf a -> wf b -> clean a -> clean b ->
  ~ negzero a -> ~ negzero b -> sub_to m a b res = Ret (rs, d) -> ~ negzero d.
Proof. exact sub_no_negzero. Qed.
Print Assumptions C26_no_negative_zero_sub.
Example C26_example : let a := dec "-1.5" in let b := dec "1.50" in
  wf a /\ wf b /\ clean a /\ clean b /\ ~ negzero a /\ ~ negzero b /\
  (exists d, add_to Debug a b zero = Ret (Ok tt, d) /\ neg d = false /\ (value d == 0)%Q).
Proof.
  hyps.
  eexists; vm_compute; repeat split; reflexivity.
Qed.

(** C27. *)
Theorem C27_previous_result_is_irrelevant : forall m a b r r' f,
  add_to m a b r = add_to m a b r' /\ sub_to m a b r = sub_to m a b r' /\
  mul_to m a b r = mul_to m a b r' /\ div_to m a b r f = div_to m a b r' f /\
  rem_to m a b r = rem_to m a b r' /\ round_to m a r f = round_to m a r' f.
Proof. exact res_irrelevant. Qed.
Print Assumptions C27_previous_result_is_irrelevant.
Example C27_example : let r := dec "-99999999999999999999999999999999999999.9999" in let a := dec "1.5" in
  add_to Debug a a zero = add_to Debug a a r /\ mul_to Debug a a zero = mul_to Debug a a r /\
  (exists d, mul_to Debug a a r = Ret (Ok tt, d)).
Proof. split; [|split]; [vm_compute; reflexivity..|eexists; vm_compute; reflexivity]. Qed.

(** C49. *)
Theorem C49_subtraction_and_comparison_agree : forall m a b res rs d, wf a -> wf b ->
  ~ negzero a -> ~ negzero b -> sub_to m a b res = Ret (rs, d) ->
  cmp m a b = Ret (Qcompare (value d) 0).
Proof. exact sub_cmp. Qed.
Print Assumptions C49_subtraction_and_comparison_agree.
Example C49_example : let a := dec "1.5" in let b := dec "1.5000000001" in
  wf a /\ wf b /\ ~ negzero a /\ ~ negzero b /\
  exists d, sub_to Debug a b zero = Ret (Ok tt, d) /\ Qcompare (value d) 0 = Lt.
Proof.
  hyps.
  eexists; vm_compute; repeat split; reflexivity.
Qed.

(** C51: a running total ([acc = acc + x] over a list of any length). *)
Theorem C51_running_totals_are_exact : forall m l acc d, wf acc -> Forall wf l ->
  total m acc l = Ret d ->
  wf d /\ (value d == value acc + fold_right (fun x q => value x + q)%Q 0%Q l)%Q.
Proof. exact total_exact. Qed.
Print Assumptions C51_running_totals_are_exact.
(** ... and it does return as long as the absolute values fit in the room of
    [I] integral units beside [F] fractional units, [F + I <= 7]. *)
Theorem C51_running_totals_return : forall m F I l, 0 <= F -> 0 <= I -> F + I <= 7 ->
  forall acc, wf acc -> Forall wf l ->
  fu acc <= F -> iu acc <= I -> Forall (fun d => fu d <= F /\ iu d <= I) l ->
  (Qabs (value acc) + fold_right (fun x q => Qabs (value x) + q)%Q 0%Q l < inject_Z (base ^ I))%Q ->
  exists d, total m acc l = Ret d.
Proof. exact total_returns. Qed.
Print Assumptions C51_running_totals_return.
Example C51_example : let l := [dec "999999999.5"; dec "-0.00000000001"; dec "1"] in
  Forall wf l /\ (exists d, total Debug zero l = Ret d) /\
  Forall (fun d => fu d <= 2 /\ iu d <= 2) l /\
  (Qabs (value zero) + fold_right (fun x q => Qabs (value x) + q)%Q 0%Q l < inject_Z (base ^ 2))%Q.
Proof.
  split; [repeat (apply Forall_cons; [wfd|]); apply Forall_nil|]. split; [eexists; vm_compute; reflexivity|].
  split; [repeat (apply Forall_cons; [split; vm_compute; discriminate|]); apply Forall_nil|]. vm_compute; reflexivity.
Qed.
