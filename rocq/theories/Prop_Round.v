(** * Properties: rounding (C38-C42). *)
From Coq Require Import ZArith List Bool String QArith Qabs.
From Verif Require Import Rust Model_Base Model_Cmp Model_Round Model_Arith Spec Lib QLib Round RoundTo RoundQ Witness.
Import ListNotations.
Open Scope Z_scope.

(** C38.  [nohidden a] (no digit stored beyond [frac]) only matters when the
    decimal is not shortened; see the third theorem for the other decimals. *)
Theorem C38_round_to_is_half_away : forall m a res f d, wf a -> 0 <= f <= 127 ->
  f < frac_digits a \/ nohidden a -> round_to m a res f = Ret d ->
  wf d /\ (value d == round_at (value a) f)%Q /\ frac_digits d = f /\ neg d = neg a /\ nohidden d /\
  (clean a -> clean d) /\ (tight a -> tight d).
Proof. exact round_to_spec_ret. Qed.
Print Assumptions C38_round_to_is_half_away.

(** It returns exactly when the digits fit in nine units. *)
Theorem C38_round_to_returns_iff_room : forall m a res f, wf a -> 0 <= f <= 127 -> f < frac_digits a \/ nohidden a ->
  ((exists d, round_to m a res f = Ret d) <->
   iu a + units_for f <= 9 /\ (Qabs (round_at (value a) f) < pow10 (9 * (9 - units_for f)))%Q).
Proof. exact round_to_returns. Qed.
Print Assumptions C38_round_to_returns_iff_room.

Theorem C38_longer_keeps_the_number : forall m a res f d, wf a -> frac_digits a <= f <= 127 ->
  round_to m a res f = Ret d -> wf d /\ (value d == value a)%Q /\ frac_digits d = f /\ neg d = neg a.
Proof. exact round_to_keeps. Qed.
Print Assumptions C38_longer_keeps_the_number.

Example C38_example : let a := dec "-999999999.9999999995" in
  wf a /\ nohidden a /\ clean a /\ tight a /\
  (exists d, round_to Debug a zero 9 = Ret d /\ iu d = 2 /\ magnitude d = 10 ^ 18 /\ neg d = true) /\
  (exists d, round_to Release a zero 20 = Ret d /\ fu d = 3) /\
  (exists d, round_to Debug (dec "2.5") zero 0 = Ret d /\ magnitude d = 3) /\
  (exists d, round_to Debug (dec "-2.4999999999") zero 0 = Ret d /\ magnitude d = 2).
Proof. hyps; eexists; vm_compute; repeat split; reflexivity. Qed.

(** C39 is false: positions that are whole units truncate instead of
    rounding, and the highest position always gives zero. *)
Theorem C39_refuted_whole_units : exists a d, wf a /\ clean a /\ tight a /\ nohidden a /\
  a = dec "1999999999" /\ (forall m res, round_to m a res (-9) = Ret d) /\
  ~ (value d == round_at (value a) (-9))%Q /\ (value d == inject_Z 1000000000)%Q.
Proof.
  exists (dec "1999999999"), (mkfd 18 0 [0; 1; 0; 0; 0; 0; 0; 0; 0]). do 4 (split; [hyps|]). split; [reflexivity|].
  split; [intros [] res; vm_compute; reflexivity|]. split; [intros H; vm_compute in H; discriminate|reflexivity].
Qed.
Print Assumptions C39_refuted_whole_units.
Theorem C39_refuted_top_digit : exists a b d, wf a /\ wf b /\ tight a /\ tight b /\ nohidden a /\ nohidden b /\
  a = dec "95" /\ b = dec "095" /\ (value a == value b)%Q /\
  (forall m res, round_to m a res (-2) = Ret zero) /\ (forall m res, round_to m b res (-2) = Ret d) /\
  (value d == round_at (value a) (-2))%Q /\ (value d == inject_Z 100)%Q.
Proof.
  exists (dec "95"), (dec "095"), (mkfd 9 0 [100; 0; 0; 0; 0; 0; 0; 0; 0]). do 6 (split; [hyps|]).
  split; [reflexivity|]. split; [reflexivity|]. split; [reflexivity|].
  split; [intros [] res; vm_compute; reflexivity|]. split; [intros [] res; vm_compute; reflexivity|]. split; reflexivity.
Qed.
Print Assumptions C39_refuted_top_digit.

(** What does hold: the exact behaviour for every negative position. *)
Theorem C39_round_to_negative_partial : forall m a res f, wf a -> f < 0 -> - f < int_digits a ->
  let v := if f mod 9 =? 0 then truncate_at (value a) f else round_at (value a) f in
  (exists d, round_to m a res f = Ret d /\
     (wf d /\ neg d = neg a /\ frac_digits d = 0 /\ (clean a -> clean d) /\ (tight a -> tight d) /\ (nohidden a -> nohidden d)) /\
     nohidden d /\ tight d /\ (value d == v)%Q) \/
  (round_to m a res f = Panic PIndex /\ ~ (Qabs v < pow10 81)%Q).
Proof. exact round_to_neg_spec. Qed.
Print Assumptions C39_round_to_negative_partial.
Theorem C39_round_to_above_the_digits_partial : forall m a res f, wf a -> -9223372036854775807 < f < 0 ->
  int_digits a <= - f ->
  round_to m a res f = Ret zero /\ (tight a -> int_digits a < - f -> (round_at (value a) f == 0)%Q).
Proof. exact round_to_high. Qed.
Print Assumptions C39_round_to_above_the_digits_partial.

Example C39_example : let a := dec "-123456789012345.5" in wf a /\ tight a /\ int_digits a = 15 /\
  (exists d, round_to Debug a zero (-10) = Ret d /\ (value d == inject_Z (-123460000000000))%Q) /\
  (exists d, round_to Debug a zero (-1) = Ret d /\ (value d == inject_Z (-123456789012350))%Q).
Proof. hyps; eexists; vm_compute; split; reflexivity. Qed.

(** C40 is false: growing by whole units in place leaves digits behind. *)
Theorem C40_refuted : exists a d d', wf a /\ clean a /\ tight a /\ nohidden a /\ a = dec "1.5" /\
  (forall m, round m a 10 = Ret d) /\ (forall m res, round_to m a res 10 = Ret d') /\
  (value d' == 3 # 2)%Q /\ (value d == (3 # 2) + 5 * pow10 (-10))%Q.
Proof.
  exists (dec "1.5"), (mkfd 1 10 [500000000; 500000000; 1; 0; 0; 0; 0; 0; 0]), (mkfd 1 10 [0; 500000000; 1; 0; 0; 0; 0; 0; 0]).
  do 4 (split; [hyps|]). split; [reflexivity|]. split; [intros []; vm_compute; reflexivity|].
  split; [intros [] res; vm_compute; reflexivity|]. split; reflexivity.
Qed.
Print Assumptions C40_refuted.

(** Agreement in all other cases, panics included ... *)
Theorem C40_in_place_agrees_partial : forall m a res f, wf a -> clean a ->
  f < frac_digits a \/ units_for f = fu a ->
  round m a f = round_to m a res f.
Proof. exact round_in_place. Qed.
Print Assumptions C40_in_place_agrees_partial.

(** ... and when growing by whole units exactly if the lowest units are zero. *)
Theorem C40_growing_agrees_iff_partial : forall m a res f, wf a -> clean a -> frac_digits a <= f <= 119 ->
  fu a < units_for f -> iu a + units_for f <= 9 ->
  exists d d', round m a f = Ret d /\ round_to m a res f = Ret d' /\
    (d = d' <-> magnitude a mod base ^ (units_for f - fu a) = 0) /\
    ((value d == value d')%Q <-> magnitude a mod base ^ (units_for f - fu a) = 0).
Proof. exact round_agree_iff. Qed.
Print Assumptions C40_growing_agrees_iff_partial.

Example C40_example : let a := dec "-999999999.99999999951" in wf a /\ clean a /\
  (exists d, round Debug a 9 = Ret d /\ iu d = 2) /\ (exists d, round Debug a (-3) = Ret d) /\
  (exists d d', round Debug (dec "7") 3 = Ret d /\ round_to Debug (dec "7") zero 3 = Ret d' /\ d <> d') /\
  (exists d, round Debug (dec "1000000000") 3 = Ret d /\ round_to Debug (dec "1000000000") zero 3 = Ret d).
Proof.
  hyps.
  - eexists; vm_compute; split; reflexivity.
  - eexists; vm_compute; reflexivity.
  - do 2 eexists; split; [vm_compute; reflexivity|]. split; [vm_compute; reflexivity|]. discriminate.
  - eexists; vm_compute; split; reflexivity.
Qed.

(** C41 *)
Theorem C41_rounding_twice : forall m a res res' f d, wf a -> 0 <= f <= 127 -> f < frac_digits a \/ nohidden a ->
  round_to m a res f = Ret d -> round_to m d res' f = Ret d.
Proof. exact round_to_twice. Qed.
Print Assumptions C41_rounding_twice.
Theorem C41_rounding_is_monotone : forall m a b r1 r2 f da db, wf a -> wf b -> nohidden a -> nohidden b -> 0 <= f <= 127 ->
  round_to m a r1 f = Ret da -> round_to m b r2 f = Ret db ->
  cmp m a b <> Ret Gt -> cmp m da db <> Ret Gt.
Proof. exact round_to_mono. Qed.
Print Assumptions C41_rounding_is_monotone.
Theorem C41_rounding_is_close : forall m a res f d, wf a -> nohidden a -> 0 <= f <= 127 -> round_to m a res f = Ret d ->
  (Qabs (value d - value a) <= pow10 (- f) * (1 # 2))%Q.
Proof. exact round_to_close. Qed.
Print Assumptions C41_rounding_is_close.
Theorem C41_equal_numbers_round_equally : forall m a b r1 r2 f da db, wf a -> wf b -> nohidden a -> nohidden b -> 0 <= f <= 127 ->
  round_to m a r1 f = Ret da -> round_to m b r2 f = Ret db -> eq m a b = Ret true -> eq m da db = Ret true.
Proof. exact round_to_eq. Qed.
Print Assumptions C41_equal_numbers_round_equally.

Example C41_example : let a := dec "00.00450" in let b := dec "0.0045" in let c := dec "0.00549999999999" in
  wf a /\ wf b /\ wf c /\ nohidden a /\ nohidden b /\ nohidden c /\ a <> b /\ eq Debug a b = Ret true /\ cmp Debug b c = Ret Lt /\
  (exists d, round_to Debug a zero 3 = Ret d /\ (value d == 5 # 1000)%Q) /\
  (exists d, round_to Debug c zero 3 = Ret d /\ (value d == 5 # 1000)%Q).
Proof. hyps; eexists; vm_compute; split; reflexivity. Qed.

(** C42 is false: large arguments wrap ... *)
Theorem C42_refuted_wraps : exists a d, wf a /\ a = dec "1" /\
  (forall m res, round_to m a res 250 = Ret d) /\ (forall m, round m a 250 = Ret d) /\ fd_frac d = -6 /\ ~ wf d.
Proof.
  exists (dec "1"), (mkfd 1 (-6) [1; 0; 0; 0; 0; 0; 0; 0; 0]). split; [hyps|]. split; [reflexivity|].
  split; [intros [] res; vm_compute; reflexivity|]. split; [intros []; vm_compute; reflexivity|].
  split; [reflexivity|]. intros [_ _ _ H _]. vm_compute in H. apply H. reflexivity.
Qed.
Print Assumptions C42_refuted_wraps.
(** ... or panic. *)
Theorem C42_refuted_panics : exists a, wf a /\ a = dec "1" /\
  (forall m res, exists p, round_to m a res 100 = Panic p) /\ (forall m, exists p, round m a 100 = Panic p) /\
  (forall res, exists p, round_to Debug a res (-9223372036854775808) = Panic p).
Proof.
  exists (dec "1"). split; [hyps|]. split; [reflexivity|].
  split; [intros [] res; eexists; vm_compute; reflexivity|]. split; [intros []; eexists; vm_compute; reflexivity|].
  intros res; eexists; vm_compute; reflexivity.
Qed.
Print Assumptions C42_refuted_panics.
(** Between those bounds a returning call gives a well-formed decimal. *)
Theorem C42_nonnegative_arguments_partial : forall m a res f d, wf a -> 0 <= f <= 127 -> f < frac_digits a \/ nohidden a -> round_to m a res f = Ret d ->
  wf d /\ (value d == round_at (value a) f)%Q /\ frac_digits d = f /\ neg d = neg a /\ nohidden d /\
  (clean a -> clean d) /\ (tight a -> tight d).
Proof. exact round_to_spec_ret. Qed.
Print Assumptions C42_nonnegative_arguments_partial.
Theorem C42_negative_arguments_partial : forall m a res f d, wf a -> -9223372036854775807 < f < 0 ->
  round_to m a res f = Ret d -> wf d /\ frac_digits d = 0.
Proof. exact round_to_neg_wf. Qed.
Print Assumptions C42_negative_arguments_partial.
Example C42_example : let a := dec "-15.75" in wf a /\ nohidden a /\ (exists d, round_to Debug a zero 1 = Ret d /\ Model_Serde.to_string Debug d (-1) = Ret (Tests.bytes "-15.8")) /\
  (exists d, round_to Debug a zero (-1) = Ret d /\ Model_Serde.to_string Debug d (-1) = Ret (Tests.bytes "-20")).
Proof. cbv zeta. split; [hyps|]. split; [hyps|]. split; eexists; (split; [vm_compute; reflexivity|]); vm_compute; reflexivity. Qed.
