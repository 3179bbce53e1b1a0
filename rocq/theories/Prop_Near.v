(** * Properties: remainders that are right or the distance to the next
    multiple (C86), and quotients and remainders of every pair of machine
    integers (C87). [group] is in [Spec_Div]. *)
From Coq Require Import ZArith Zquot List Bool String Lia QArith Qabs Qround Lqa.
From Verif Require Import Rust Model_Base Model_Decimal Model_Arith Model_Serde Spec Spec_Div Lib QLib Sign Basics AddSub Cmp DivBasics DivQ DivG2 Laws Robust Robust2 Robust3 MulQ RoundQ Rem7
  Prop_Print Prop_Div Prop_Robust Prop_Rem Prop_Integers Prop_Lead Witness.
Import ListNotations.
Open Scope Z_scope.

(** C86: if no group of nine integral digits of the quotient is within ten of
    10^9, the remainder that comes back is right, or it is the distance from the
    dividend to the next multiple of the divisor away from zero; in the latter case it is less than
    the divisor by a factor of 10^8. *)
Theorem C86_right_or_complement : forall m a b res rs d, wf a -> wf b -> ~ (value b == 0)%Q ->
  (forall k, k <= 0 -> group (value a / value b) k <= 999999989) ->
  rem_to m a b res = Ret (rs, d) ->
  rs = Ok tt /\ wf d /\ ~ negzero d /\ (~ (value d == 0)%Q -> neg d = neg a) /\ (Qabs (value d) < Qabs (value b))%Q /\
  ((exists q : Z, (value a == value b * inject_Z q + value d)%Q) \/
   ((100000000 * Qabs (value d) < Qabs (value b))%Q /\ exists q : Z, (value a == value b * inject_Z q - value d)%Q)).
Proof.
  intros m a b res rs d Ha Hb Nb TG H. destruct (rem_to_near m a b res rs d Ha Hb Nb TG H) as (E1 & E2 & E3).
  destruct (rem_to_any m a b res rs d Ha Hb Nb H) as (_ & W & _ & _ & Z & S & _). auto 8.
Qed.
Print Assumptions C86_right_or_complement.

Lemma small_groups q : (Qabs q < 999999990)%Q -> forall k, k <= 0 -> group q k <= 999999989.
Proof.
  intros H k Hk. destruct (Z.eq_dec k 0) as [->|K].
  - unfold group. assert (E : Qfloor (Qabs q * pow10 (9 * 0)) = Qfloor (Qabs q)) by (apply Qfloor_comp; change (pow10 (9 * 0)) with 1%Q; ring). rewrite E.
    pose proof (Qfloor_le (Qabs q)) as F. pose proof (Qabs_nonneg q) as N.
    assert (F1 : Qfloor (Qabs q) < 999999990) by (rewrite Zlt_Qlt; exact (Qle_lt_trans _ _ _ F H)). assert (F0 : 0 <= Qfloor (Qabs q)) by (change 0 with (Qfloor 0); apply Qfloor_resp_le, N).
    set (z := Qfloor (Qabs q)) in *. clearbody z. rewrite Z.mod_small by (unfold base; lia). lia.
  - rewrite group_small; [lia|]. apply Qle_lt_trans with (Qabs q * pow10 (-9))%Q.
    + rewrite !(Qmult_comm (Qabs q)). apply Qmult_le_compat_r; [apply pow10_mono; lia|apply Qabs_nonneg].
    + change (pow10 (-9)) with (1 # 1000000000). set (u := Qabs q) in *. clearbody u. lra.
Qed.
(** In particular for every quotient below 999999990. *)
Theorem C86_small_quotients : forall m a b res rs d, wf a -> wf b -> ~ (value b == 0)%Q ->
  (Qabs (value a / value b) < 999999990)%Q -> rem_to m a b res = Ret (rs, d) ->
  rs = Ok tt /\ wf d /\ ~ negzero d /\ (~ (value d == 0)%Q -> neg d = neg a) /\ (Qabs (value d) < Qabs (value b))%Q /\
  ((exists q : Z, (value a == value b * inject_Z q + value d)%Q) \/
   ((100000000 * Qabs (value d) < Qabs (value b))%Q /\ exists q : Z, (value a == value b * inject_Z q - value d)%Q)).
Proof. intros m a b res rs d Ha Hb Nb Q. apply C86_right_or_complement; try assumption. apply small_groups, Q. Qed.
Print Assumptions C86_small_quotients.

(** So a remainder that is not tiny beside the divisor can be trusted. *)
Theorem C86_large_remainders_are_right : forall m a b res rs d, wf a -> wf b -> ~ (value b == 0)%Q ->
  (forall k, k <= 0 -> group (value a / value b) k <= 999999989) ->
  rem_to m a b res = Ret (rs, d) -> (Qabs (value b) <= 100000000 * Qabs (value d))%Q ->
  exists q : Z, (value a == value b * inject_Z q + value d)%Q /\ (Qabs (value d) < Qabs (value b))%Q.
Proof.
  intros m a b res rs d Ha Hb Nb TG H L. destruct (C86_right_or_complement m a b res rs d Ha Hb Nb TG H) as (_ & _ & _ & _ & E & [[q X]|[X _]]); [exists q; auto|].
  exfalso. exact (Qlt_not_le _ _ X L).
Qed.
Print Assumptions C86_large_remainders_are_right.

Example C86_complement_example : let a := dec "-3.000000000000000002" in let b := dec "1.000000000000000001" in
  wf a /\ wf b /\ ~ (value b == 0)%Q /\ (Qabs (value a / value b) < 999999990)%Q /\
  exists d, rem_to Debug a b zero = Ret (Ok tt, d) /\ (value d == value (dec "-.000000000000000001"))%Q /\ (value a == value b * inject_Z (-3) - value d)%Q.
Proof.
  split; [wfd|]. split; [wfd|]. split; [vm_compute; discriminate|]. split; [vm_compute; reflexivity|].
  eexists. split; [vm_compute; reflexivity|]. split; vm_compute; reflexivity.
Qed.
Example C86_large_example : let a := dec "7.5" in let b := dec "2.000000000000000000000000001" in
  wf a /\ wf b /\ ~ (value b == 0)%Q /\ (Qabs (value a / value b) < 999999990)%Q /\
  exists d, rem_to Debug a b zero = Ret (Ok tt, d) /\ (Qabs (value b) <= 100000000 * Qabs (value d))%Q /\ (value d == value (dec "1.499999999999999999999999997"))%Q.
Proof.
  split; [wfd|]. split; [wfd|]. split; [vm_compute; discriminate|]. split; [vm_compute; reflexivity|].
  eexists. split; [vm_compute; reflexivity|]. split; [vm_compute; discriminate|vm_compute; reflexivity].
Qed.

(** ** Machine integers *)

(** What a remainder may be: right, or, for divisors of at least 19 digits only,
    the distance to the next multiple of [y], which is then tiny beside [y]. *)
Definition remainder_or_complement (x y r : Z) : Prop :=
  r = Z.rem x y \/ (10 ^ 18 <= Z.abs y /\ 10 ^ 8 * Z.abs r < Z.abs y /\ r = Z.sgn x * (Z.abs y - Z.abs (Z.rem x y))).

Lemma complement_is x y q r : y <> 0 -> x = y * q - r -> Z.abs r < Z.abs y -> r <> 0 -> (r < 0 <-> x < 0) -> r = Z.sgn x * (Z.abs y - Z.abs (Z.rem x y)).
Proof.
  intros Hy E L R0 S. assert (X0 : x <> 0). { intros ->. assert (y * q = r) by lia. assert (Z.abs y * Z.abs q = Z.abs r) by (rewrite <- Z.abs_mul; congruence). assert (q <> 0) by (intros ->; lia). nia. }
  assert (E2 : Z.rem x y = Z.sgn x * Z.abs y - r).
  { symmetry. apply (rem_is x y (q - Z.sgn x * Z.sgn y)); [exact Hy| | |].
    - rewrite E at 1. generalize (Z.sgn x). intros s. destruct (Z.lt_trichotomy y 0) as [Y|[Y|Y]]; [|lia|]; [rewrite (Z.sgn_neg y) by exact Y|rewrite (Z.sgn_pos y) by exact Y]; lia.
    - destruct (Z.lt_trichotomy x 0) as [X|[X|X]]; [|lia|]; [rewrite (Z.sgn_neg x) by exact X|rewrite (Z.sgn_pos x) by exact X]; lia.
    - intros _. destruct (Z.lt_trichotomy x 0) as [X|[X|X]]; [|lia|]; [rewrite (Z.sgn_neg x) by exact X|rewrite (Z.sgn_pos x) by exact X]; lia. }
  rewrite E2. destruct (Z.lt_trichotomy x 0) as [X|[X|X]]; [|lia|]; [rewrite (Z.sgn_neg x) by exact X|rewrite (Z.sgn_pos x) by exact X]; lia.
Qed.
Lemma machine_any_rem m a b x y : machine a x -> machine b y -> y <> 0 -> Z.abs x < 10 ^ 20 ->
  forall rs d, rem_to m a b zero = Ret (rs, d) -> rs = Ok tt /\ wf d /\ clean d /\ ~ negzero d /\ exists r, (value d == inject_Z r)%Q /\ remainder_or_complement x y r.
Proof.
  intros A B Hy Hx rs d E. destruct (Z.lt_ge_cases (Z.abs y) (10 ^ 18)) as [Y|Y].
  { destruct (machine_rem m a b x y A B ltac:(left; lia)) as [R _]. destruct (R rs d E) as (E1 & E2 & E3 & E4 & E5). split; [exact E1|]. split; [exact E2|]. split; [exact E3|]. split; [exact E4|].
    exists (Z.rem x y). split; [exact E5|left; reflexivity]. }
  destruct (machine_units b y B) as (UB & FB & MB), (machine_units a x A) as (UA & FA & MA). pose proof (machine_nonzero b y B Hy) as Nb.
  pose proof A as [(Wa & _) Va _ _ Za]. pose proof B as [(Wb & _) Vb _ _ _].
  assert (F : far 0 x y) by (split; [exact Y|]; split; [exact Hx|]; intros k Hk; lia).
  assert (TG : forall k, k <= 0 -> group (value a / value b) k <= 999999989) by (apply (far_groups a b 0 x y A B F)).
  destruct (rem_to_any m a b zero rs d Wa Wb Nb E) as (_ & W & C & _ & Z & S & _).
  destruct (C86_right_or_complement m a b zero rs d Wa Wb Nb TG E) as (E1 & _ & _ & _ & L & RC). split; [exact E1|]. split; [exact W|]. split; [exact C|]. split; [exact Z|].
  assert (Pn : forall e z, wf e -> (value e == inject_Z z)%Q -> (neg e = true -> z <= 0) /\ (neg e = false -> 0 <= z)).
  { intros e z We Ve. split; intros N; [pose proof (neg_le e We N) as P|pose proof (pos_ge e We N) as P]; rewrite Ve in P; change 0%Q with (inject_Z 0) in P; rewrite <- Zle_Qle in P; exact P. }
  assert (SG : forall r, (value d == inject_Z r)%Q -> r <> 0 -> (r < 0 <-> x < 0)).
  { intros r Vd D. assert (Dn : ~ (value d == 0)%Q) by (rewrite Vd; intros X; unfold Qeq in X; cbn in X; lia). specialize (S Dn). destruct (Pn d _ W Vd) as [D1 D2], (Pn a x Wa Va) as [A1 A2]. rewrite S in D1, D2.
    destruct (neg a) eqn:Na; [specialize (D1 eq_refl); specialize (A1 eq_refl)|specialize (D2 eq_refl); specialize (A2 eq_refl)]; [|lia].
    destruct (Z.eq_dec x 0) as [->|]; [|lia]. exfalso. apply Za. split; [exact Na|exact Va]. }
  assert (LT : forall r, (value d == inject_Z r)%Q -> Z.abs r < Z.abs y).
  { intros r Vd. rewrite Vd, Vb in L. unfold Qlt, Qabs in L. cbn in L. clear - L. lia. }
  destruct RC as [[q V]|[T [q V]]].
  - assert (Vd : (value d == inject_Z (x - y * q))%Q) by (unfold Z.sub; rewrite inject_Z_plus, inject_Z_opp, inject_Z_mult, <- Va, <- Vb, V; ring).
    exists (x - y * q). split; [exact Vd|]. left. apply (rem_is x y q); [exact Hy|lia|apply LT, Vd|apply SG, Vd].
  - assert (Vd : (value d == inject_Z (y * q - x))%Q) by (unfold Z.sub; rewrite inject_Z_plus, inject_Z_opp, inject_Z_mult, <- Va, <- Vb, V; ring).
    exists (y * q - x). split; [exact Vd|]. specialize (LT _ Vd). specialize (SG _ Vd). destruct (Z.eq_dec (y * q - x) 0) as [R|R].
    + left. rewrite R. apply (rem_is x y q); lia.
    + right. split; [exact Y|]. split; [|apply (complement_is x y q); auto; lia]. rewrite Vd, Vb in T. unfold Qlt, Qabs, Qmult in T. cbn [Qnum Qden inject_Z] in T. revert T. generalize (y * q - x). intros z T. change (10 ^ 8) with 100000000. lia.
Qed.
(** C87: the remainder of two machine integers, whichever they are. *)
Theorem C87_i64_remainders : forall m x y, is_i64 x -> is_i64 y -> y <> 0 ->
  exists a b, from_i64 m x = Ret a /\ from_i64 m y = Ret b /\
    forall rs d, rem_to m a b zero = Ret (rs, d) -> rs = Ok tt /\ exists r, as_i64 m d = Ret (Ok r) /\ remainder_or_complement x y r.
Proof.
  intros m x y Hx Hy Y0. destruct (i64_machine m x Hx) as (a & Ea & A), (i64_machine m y Hy) as (b & Eb & B). exists a, b. split; [exact Ea|]. split; [exact Eb|].
  intros rs d E. destruct (machine_any_rem m a b x y A B Y0 ltac:(unfold is_i64 in Hx; lia) rs d E) as (-> & W & C & _ & r & V & R). split; [reflexivity|]. exists r. split; [|exact R].
  rewrite (as_i64_integer m d r W C V). assert (L : Z.abs r < Z.abs y) by (destruct R as [->|(_ & R & _)]; [apply Z.rem_bound_abs, Y0|lia]).
  unfold checked_i64, is_i64 in *. destruct (Z.leb_spec (-9223372036854775808) r), (Z.leb_spec r 9223372036854775807); try reflexivity; lia.
Qed.
Print Assumptions C87_i64_remainders.
Theorem C87_u64_remainders : forall m x y, is_u64 x -> is_u64 y -> y <> 0 ->
  exists a b, from_u64 m x = Ret a /\ from_u64 m y = Ret b /\
    forall rs d, rem_to m a b zero = Ret (rs, d) -> rs = Ok tt /\ exists r, as_u64 m d = Ret (Ok r) /\ remainder_or_complement x y r.
Proof.
  intros m x y Hx Hy Y0. destruct (u64_machine m x Hx) as (a & Ea & A), (u64_machine m y Hy) as (b & Eb & B). exists a, b. split; [exact Ea|]. split; [exact Eb|]. unfold is_u64 in *.
  intros rs d E. destruct (machine_any_rem m a b x y A B Y0 ltac:(lia) rs d E) as (-> & W & C & Z & r & V & R). split; [reflexivity|]. exists r. split; [|exact R].
  rewrite (as_u64_integer m d r W C Z V). assert (L : Z.abs r < Z.abs y) by (destruct R as [->|(_ & R & _)]; [apply Z.rem_bound_abs, Y0|lia]).
  assert (P : 0 <= r). { destruct R as [->|(_ & _ & ->)]; [apply Z.rem_nonneg; lia|]. pose proof (Z.rem_bound_abs x y Y0). apply Z.mul_nonneg_nonneg; [|lia]. destruct (Z.eq_dec x 0) as [->|]; [cbn; lia|rewrite Z.sgn_pos; lia]. }
  unfold checked_u64. destruct (Z.leb_spec 0 r), (Z.leb_spec r 18446744073709551615); try reflexivity; lia.
Qed.
Print Assumptions C87_u64_remainders.

(** In a debug build a quotient below 10^9 is right before the point. *)
Theorem C87_integral_part : forall a b res incr d, wf a -> wf b -> ~ (value b == 0)%Q -> (Qabs (value a / value b) < 1000000000)%Q ->
  div_to Debug a b res incr = Ret (Ok tt, d) ->
  exists n, to_string Debug d 0 = Ret (numeral_bytes n) /\ canonical n /\ n_frac n = [] /\ (numeral_value n == inject_Z (truncate (value a / value b)))%Q.
Proof.
  intros a b res incr d Ha Hb Nb Q H. destruct (C36_debug_quotients_partial a b res incr _ d Ha Hb H) as (W & _).
  destruct (C09_to_string_truncates Debug d 0 W ltac:(lia)) as (n & E1 & E2 & _ & E3 & E4). exists n. split; [exact E1|]. split; [exact E2|].
  split; [destruct (n_frac n) as [|? l]; [reflexivity|unfold zlength in E3; cbn in E3; lia]|].
  rewrite E4. pose proof (frac_le_fu d W) as [[F0 _] _]. pose proof (C85_leading_group a b res incr d 0 Ha Hb Nb H ltac:(lia) Q) as X. change (9 * 0) with 0 in X. rewrite X.
  unfold truncate_at. change (pow10 (- 0)) with 1%Q. rewrite Qmult_1_r. rewrite (truncate_comp _ (value a / value b)); [reflexivity|]. change (pow10 0) with 1%Q. apply Qmult_1_r.
Qed.
Print Assumptions C87_integral_part.

Lemma machine_any_quot x y a b : machine a x -> machine b y -> y <> 0 -> Z.abs x < 10 ^ 20 ->
  forall rs d, div_to Debug a b zero 4 = Ret (rs, d) -> rs = Ok tt /\
  exists n, to_string Debug d 0 = Ret (numeral_bytes n) /\ canonical n /\ n_frac n = [] /\ (numeral_value n == inject_Z (Z.quot x y))%Q.
Proof.
  intros A B Hy Hx rs d E. pose proof (machine_nonzero b y B Hy) as Nb. pose proof A as [(Wa & _) Va _ _ Za]. pose proof B as [(Wb & _) Vb _ _ _].
  destruct (Z.lt_ge_cases (Z.abs y) (10 ^ 18)) as [Y|Y].
  - destruct (machine_div Debug a b x y A B ltac:(left; lia)) as [R1 _]. destruct (R1 rs d E) as (-> & W & C & Z & F & V). split; [reflexivity|].
    pose proof (frac_le_fu d W) as [[F0 _] _].
    destruct (C09_to_string_truncates Debug d 0 W ltac:(lia)) as (n & E1 & E2 & _ & E3 & E4). exists n. split; [exact E1|]. split; [exact E2|].
    split; [destruct (n_frac n) as [|? l]; [reflexivity|unfold zlength in E3; cbn in E3; lia]|].
    rewrite E4. unfold truncate_at. change (pow10 (- 0)) with 1%Q. rewrite Qmult_1_r. rewrite (truncate_comp (value d * pow10 0) (truncate_at (inject_Z x / inject_Z y) (frac_digits d))) by (change (pow10 0) with 1%Q; rewrite Qmult_1_r; exact V).
    rewrite truncate_truncate by exact F0. rewrite quot_truncate by exact Hy. reflexivity.
  - assert (Q : (Qabs (value a / value b) < 1000000000)%Q).
    { assert (F : far 0 x y) by (split; [exact Y|]; split; [exact Hx|]; intros k Hk; lia).
      rewrite Va, Vb. assert (Y0 : (0 < inject_Z (Z.abs y))%Q) by (change 0%Q with (inject_Z 0); rewrite <- Zlt_Qlt; lia).
      assert (P : forall z, (Qabs (inject_Z z) == inject_Z (Z.abs z))%Q) by (intros z; reflexivity). assert (Ny : ~ (inject_Z y == 0)%Q) by (intros X; unfold Qeq in X; cbn in X; lia).
      assert (I : (Qabs (inject_Z x / inject_Z y) * inject_Z (Z.abs y) == inject_Z (Z.abs x))%Q).
      { rewrite <- !P, <- Qabs_Qmult. apply Qabs_wd. field. exact Ny. }
      assert (XX : (inject_Z (Z.abs x) < 1000000000 * inject_Z (Z.abs y))%Q) by (change 1000000000%Q with (inject_Z 1000000000); rewrite <- inject_Z_mult, <- Zlt_Qlt; lia).
      rewrite <- I in XX. apply Qmult_lt_r in XX; assumption. }
    destruct (Qeq_dec (value a) 0) as [V0|V0].
    + rewrite (div_to_zero Debug a b zero 4 Wa Wb V0 Nb) in E. pose proof E as E'. apply Ret_inj in E'. assert (rs = Ok tt) by congruence. assert (d = zero) by congruence. subst rs d. split; [reflexivity|].
      pose proof (C87_integral_part a b zero 4 zero Wa Wb Nb Q (div_to_zero Debug a b zero 4 Wa Wb V0 Nb)) as (n & E1 & E2 & E3 & E4). exists n. split; [exact E1|]. split; [exact E2|]. split; [exact E3|].
      rewrite E4, (truncate_comp _ (inject_Z x / inject_Z y)) by (rewrite Va, Vb; reflexivity). rewrite quot_truncate by exact Hy. reflexivity.
    + assert (rs = Ok tt) as ->.
      { destruct (div_to_any Debug a b zero 4 rs d Wa Wb V0 Nb E) as (_ & _ & _ & _ & e & X1 & X2 & [(X & _)|(_ & X & _)]); [|exact X].
        exfalso. apply (Qlt_irrefl 1000000000). eapply Qle_lt_trans; [|exact Q]. eapply Qle_trans; [|exact X1]. change (1000000000)%Q with (pow10 9). apply pow10_mono. lia. }
      split; [reflexivity|]. destruct (C87_integral_part a b zero 4 d Wa Wb Nb Q E) as (n & E1 & E2 & E3 & E4). exists n. split; [exact E1|]. split; [exact E2|]. split; [exact E3|].
      rewrite E4, (truncate_comp _ (inject_Z x / inject_Z y)) by (rewrite Va, Vb; reflexivity). rewrite quot_truncate by exact Hy. reflexivity.
Qed.
(** C87: in a debug build every quotient of two machine integers that comes back,
    printed without fractional digits, is Rust's [/]. *)
Theorem C87_i64_quotients : forall x y, is_i64 x -> is_i64 y -> y <> 0 ->
  exists a b, from_i64 Debug x = Ret a /\ from_i64 Debug y = Ret b /\
    forall rs q, div_to Debug a b zero 4 = Ret (rs, q) -> rs = Ok tt /\
      exists n, to_string Debug q 0 = Ret (numeral_bytes n) /\ canonical n /\ n_frac n = [] /\ (numeral_value n == inject_Z (Z.quot x y))%Q.
Proof.
  intros x y Hx Hy Y0. destruct (i64_machine Debug x Hx) as (a & Ea & A), (i64_machine Debug y Hy) as (b & Eb & B). exists a, b. split; [exact Ea|]. split; [exact Eb|].
  apply machine_any_quot; auto. unfold is_i64 in Hx. lia.
Qed.
Print Assumptions C87_i64_quotients.
Theorem C87_u64_quotients : forall x y, is_u64 x -> is_u64 y -> y <> 0 ->
  exists a b, from_u64 Debug x = Ret a /\ from_u64 Debug y = Ret b /\
    forall rs q, div_to Debug a b zero 4 = Ret (rs, q) -> rs = Ok tt /\
      exists n, to_string Debug q 0 = Ret (numeral_bytes n) /\ canonical n /\ n_frac n = [] /\ (numeral_value n == inject_Z (Z.quot x y))%Q.
Proof.
  intros x y Hx Hy Y0. destruct (u64_machine Debug x Hx) as (a & Ea & A), (u64_machine Debug y Hy) as (b & Eb & B). exists a, b. split; [exact Ea|]. split; [exact Eb|].
  apply machine_any_quot; auto. unfold is_u64 in Hx. lia.
Qed.
Print Assumptions C87_u64_quotients.

(** A remainder that is the distance to the next multiple: 3000000000000000002 rem 1000000000000000001
    is 1000000000000000000, and 1 comes back. *)
Example C87_remainder_example : is_i64 3000000000000000002 /\ is_i64 1000000000000000001 /\
  Z.rem 3000000000000000002 1000000000000000001 = 1000000000000000000 /\
  exists a b d, from_i64 Debug 3000000000000000002 = Ret a /\ from_i64 Debug 1000000000000000001 = Ret b /\
    rem_to Debug a b zero = Ret (Ok tt, d) /\ as_i64 Debug d = Ret (Ok 1).
Proof.
  split; [split; vm_compute; discriminate|]. split; [split; vm_compute; discriminate|]. split; [vm_compute; reflexivity|].
  do 3 eexists. split; [vm_compute; reflexivity|]. split; [vm_compute; reflexivity|]. split; [vm_compute; reflexivity|]. vm_compute; reflexivity.
Qed.
Example C87_quotient_example : is_i64 (-9223372036854775807) /\ is_i64 1234567890123456789 /\
  exists a b d, from_i64 Debug (-9223372036854775807) = Ret a /\ from_i64 Debug 1234567890123456789 = Ret b /\
    div_to Debug a b zero 4 = Ret (Ok tt, d) /\ to_string Debug d 0 = Ret [45; 55].
Proof.
  split; [split; vm_compute; discriminate|]. split; [split; vm_compute; discriminate|].
  do 3 eexists. split; [vm_compute; reflexivity|]. split; [vm_compute; reflexivity|]. split; [vm_compute; reflexivity|]. vm_compute; reflexivity.
Qed.
