(** * Properties: exactly when a remainder is right (C94), and when a debug
    build returns one (C95). [group] is in
    [Spec_Div], [remainder_computed] and [first_guess_fits] in
    [Spec_Machine], [guesses_right] and [guesses_small] in [Spec]. *)
From Coq Require Import ZArith Zquot List Bool String Lia QArith Qabs Qround Lqa.
From Verif Require Import Rust Model_Base Model_Decimal Model_Arith Model_Serde Spec Spec_Div Spec_Rem Spec_Machine Lib QLib Sign Basics AddSub Cmp DivBasics Div3 DivQ DivG2 Laws Robust Robust2 Robust3 MulQ RoundQ RemG Rem4 Rem5 Rem7 RemFull RemDebug
  Prop_Print Prop_Div Prop_Robust Prop_Rem Prop_Exact Prop_Integers Prop_Lead Prop_Near Witness.
Import ListNotations.
Open Scope Z_scope.

(** If no group of nine integral digits of the quotient is within ten of 10^9, a
    remainder is right exactly when long division guesses the units of the quotient
    right; when it does not, the result is not zero and is the distance to the next multiple. *)
Theorem C94_right_iff : forall m a b res rs d, wf a -> wf b -> ~ (value b == 0)%Q ->
  (forall k, k <= 0 -> group (value a / value b) k <= 999999989) ->
  rem_to m a b res = Ret (rs, d) ->
  ((exists q : Z, (value a == value b * inject_Z q + value d)%Q) <-> guesses_right (scaled a) (scaled b)) /\
  (~ guesses_right (scaled a) (scaled b) -> ~ (value d == 0)%Q /\ exists q : Z, (value a == value b * inject_Z q - value d)%Q).
Proof.
  intros m a b res rs d Ha Hb Nb TG H. destruct (rem_to_near_right m a b res rs d Ha Hb Nb TG H) as (_ & _ & [[R G]|(D0 & T & q & V)]).
  - split; [tauto|]. intros X. contradiction.
  - assert (N : ~ exists p : Z, (value a == value b * inject_Z p + value d)%Q).
    { intros [p V']. rewrite V' in V. assert (E : (inject_Z 2 * value d == value b * inject_Z (q - p))%Q).
      { unfold Z.sub. rewrite inject_Z_plus, inject_Z_opp. change (inject_Z 2) with 2%Q. set (u := inject_Z p) in *. set (v := inject_Z q) in *. clearbody u v.
        assert (X : (value b * v - value d - (value b * u + value d) == 0)%Q) by (rewrite V; ring). assert (Y : (2 * value d == 2 * value d + (value b * v - value d - (value b * u + value d)))%Q) by (rewrite X; ring). rewrite Y. ring. }
      assert (E2 : (Qabs (inject_Z 2 * value d) == Qabs (value b * inject_Z (q - p)))%Q) by (rewrite E; reflexivity).
      rewrite !Qabs_Qmult in E2. change (Qabs (inject_Z 2)) with 2%Q in E2. change (Qabs (inject_Z (q - p))) with (inject_Z (Z.abs (q - p))) in E2.
      pose proof (Qabs_nonneg (value d)) as PD. assert (PD' : (0 < Qabs (value d))%Q).
      { apply Qle_lteq in PD. destruct PD as [PD|PD]; [exact PD|]. exfalso. apply D0. symmetry in PD. revert PD. apply Qabs_case; intros _ Z; [exact Z|]. rewrite <- (Qopp_involutive (value d)), Z. reflexivity. }
      destruct (Z.eq_dec (Z.abs (q - p)) 0) as [Z0|Z0].
      - rewrite Z0 in E2. change (inject_Z 0) with 0%Q in E2. set (u := Qabs (value d)) in *. set (v := Qabs (value b)) in *. clearbody u v. clear - E2 PD'. lra.
      - assert (L : (1 <= inject_Z (Z.abs (q - p)))%Q) by (change 1%Q with (inject_Z 1); rewrite <- Zle_Qle; lia). set (z := inject_Z (Z.abs (q - p))) in *. clearbody z.
        set (u := Qabs (value d)) in *. set (v := Qabs (value b)) in *. clearbody u v.
        assert (V0 : (v * 1 <= v * z)%Q) by (rewrite !(Qmult_comm v); apply Qmult_le_compat_r; [exact L|clear - T PD'; lra]). clear - E2 PD' T V0. lra. }
    split; [|intros _; split; [exact D0|exists q; exact V]]. split; [intros X; contradiction|]. intros G. exfalso. apply N.
    destruct (C37_truncated_remainder_partial m a b res rs d Ha Hb Nb G H) as (_ & (p & X & _) & _). exists p. exact X.
Qed.
Print Assumptions C94_right_iff.

(** ** Machine integers *)
Lemma machine_guesses a b x y : machine a x -> machine b y -> 10 ^ 18 <= Z.abs y -> Z.abs y <= Z.abs x -> Z.abs x < 10 ^ 20 ->
  (guesses_right (scaled a) (scaled b) <-> shortened_quotient x y = Z.abs x / Z.abs y).
Proof.
  intros A B Y L X. destruct (machine_units b y B) as (_ & FB & MB), (machine_units a x A) as (_ & FA & MA).
  unfold scaled. rewrite FA, FB, MA, MB. change (9 - 0) with 9. unfold shortened_quotient. set (u := Z.abs x) in *. set (v := Z.abs y) in *. clearbody u v. clear A B FA FB MA MB x y a b.
  assert (LB : base ^ (12 - 1) <= v * base ^ 9 < base ^ 12).
  { change (12 - 1) with (2 + 9). change 12 with (3 + 9). rewrite !(base_pow_split _ 9) by lia. pose proof (pow_base_pos 9 ltac:(lia)) as P. set (p := base ^ 9) in *. clearbody p.
    change (base ^ 2) with (10 ^ 18). change (base ^ 3) with (10 ^ 27). split; [apply Z.mul_le_mono_nonneg_r; lia|apply Z.mul_lt_mono_pos_r; lia]. }
  assert (V0 : 0 < v) by lia. assert (U0 : 0 < u) by lia.
  destruct (guess_scale u v 3 0 9 ltac:(lia) ltac:(lia) ltac:(lia) V0) as (_ & G2 & G3). change (3 + 9) with 12 in *.
  assert (R : rest u v 0 = u). { unfold rest. change (base ^ (0 + 1)) with base. apply Z.mod_small. split; [lia|]. apply Z.lt_le_trans with (10 ^ 18 * base); [|apply Z.mul_le_mono_nonneg_r; [unfold base; lia|exact Y]]. change (10 ^ 18 * base) with (10 ^ 27). lia. }
  assert (S : second_guess u v 3 0 = 10 ^ 9 / (v / 10 ^ 18 + 1) * u / 10 ^ 9 / (10 ^ 9 / (v / 10 ^ 18 + 1) * v / 10 ^ 9)) by (unfold second_guess, norm_factor; rewrite R; reflexivity).
  assert (Q : quotient_unit u v 0 = u / v) by (unfold quotient_unit; rewrite R, Z.pow_0_r, Z.mul_1_r; reflexivity).
  cbv zeta. rewrite <- S, <- Q, <- G2, <- G3. clear S Q G2 G3. split.
  - intros G. apply G; [lia|exact LB|lia|]. rewrite Z.pow_0_r, Z.mul_1_r. apply Z.mul_le_mono_nonneg_r; [apply Z.lt_le_incl, pow_base_pos; lia|exact L].
  - intros E len j Hl By Hj G. assert (EL : len = 12) by (apply (len_unique (v * base ^ 9)); try assumption; lia). rewrite EL. destruct (Z.eq_dec j 0) as [->|J]; [exact E|exfalso].
    assert (base ^ 1 <= base ^ j) by (apply Z.pow_le_mono_r; [reflexivity|lia]). rewrite Z.pow_1_r in H. pose proof (pow_base_pos 9 ltac:(lia)) as P. set (p := base ^ 9) in *. clearbody p.
    assert (v * base <= u); [|change (10 ^ 20) with 100000000000000000000 in X; change (10 ^ 18) with 1000000000000000000 in Y; unfold base in *; lia].
    apply Z.mul_le_mono_pos_r with p; [exact P|]. apply Z.le_trans with (2 := G). replace (v * base * p) with (v * p * base) by ring. apply Z.mul_le_mono_nonneg_l; [apply Z.lt_le_incl, Z.mul_pos_pos; assumption|exact H].
Qed.
Lemma machine_rem_computed m a b x y : machine a x -> machine b y -> y <> 0 -> Z.abs x < 10 ^ 20 ->
  forall rs d, rem_to m a b zero = Ret (rs, d) -> rs = Ok tt /\ wf d /\ clean d /\ ~ negzero d /\ Z.abs (remainder_computed x y) < Z.abs y /\ (value d == inject_Z (remainder_computed x y))%Q.
Proof.
  intros A B Hy Hx rs d E. destruct (machine_any_rem m a b x y A B Hy Hx rs d E) as (E1 & W & C & NZ & r & V & R). split; [exact E1|]. split; [exact W|]. split; [exact C|]. split; [exact NZ|]. rewrite V.
  assert (BR : Z.abs r < Z.abs y) by (destruct R as [->|(_ & R & _)]; [apply Z.rem_bound_abs, Hy|change (10 ^ 8) with 100000000 in R; lia]).
  assert (K : r = remainder_computed x y); [|rewrite <- K; split; [exact BR|reflexivity]].
  assert (SM : 0 < Z.abs y < 10 ^ 18 \/ Z.abs x < Z.abs y -> r = Z.rem x y).
  { intros S. destruct (machine_rem m a b x y A B ltac:(destruct S; auto)) as [M _]. destruct (M rs d E) as (_ & _ & _ & _ & V'). rewrite V in V'. unfold Qeq in V'. cbn in V'. lia. }
  unfold remainder_computed. destruct (Z.leb_spec (10 ^ 18) (Z.abs y)) as [Y|Y]; [|apply SM; left; lia]. destruct (Z.leb_spec (Z.abs y) (Z.abs x)) as [L|L]; [|apply SM; right; exact L]. cbn [andb].
  pose proof (machine_nonzero b y B Hy) as Nb. pose proof A as [(Wa & _) Va _ _ Za]. pose proof B as [(Wb & _) Vb _ _ _].
  assert (TG : forall k, k <= 0 -> group (value a / value b) k <= 999999989).
  { apply (far_groups a b 0 x y A B). split; [exact Y|]. split; [exact Hx|]. intros k Hk; lia. }
  destruct (C94_right_iff m a b zero rs d Wa Wb Nb TG E) as [I _]. rewrite (machine_guesses a b x y A B Y L Hx) in I.
  assert (IZ : (exists q : Z, (value a == value b * inject_Z q + value d)%Q) <-> exists q, x = y * q + r).
  { split; intros [q Q]; exists q; [|rewrite Va, Vb, V, Q, inject_Z_plus, inject_Z_mult; reflexivity].
    rewrite Va, Vb, V, <- inject_Z_mult, <- inject_Z_plus in Q. unfold Qeq in Q. cbn in Q. lia. }
  rewrite IZ in I. clear IZ. destruct (Z.eqb_spec (shortened_quotient x y) (Z.abs x / Z.abs y)) as [S|S]; cbn [negb].
  - destruct R as [R|(_ & R1 & R2)]; [exact R|]. apply I in S. destruct S as [q Q]. apply (rem_is x y q); [exact Hy|exact Q|change (10 ^ 8) with 100000000 in R1; lia|].
    intros R0. rewrite R2. pose proof (Z.rem_bound_abs x y Hy) as BR2. set (t := Z.abs y - Z.abs (Z.rem x y)) in *. assert (0 < t) by (unfold t; lia). clearbody t. destruct (Z.lt_trichotomy x 0) as [X|[X|X]]; [rewrite Z.sgn_neg by exact X; lia|lia|rewrite Z.sgn_pos by exact X; lia].
  - destruct R as [R|(_ & _ & R)]; [|exact R]. exfalso. apply S, I. exists (Z.quot x y). rewrite R. apply Z.quot_rem. exact Hy.
Qed.

Lemma machine_release a b x y : machine a x -> machine b y -> y <> 0 -> exists d, rem_to Release a b zero = Ret (Ok tt, d).
Proof.
  intros A B Y0. destruct (machine_units b y B) as (UB & FB & _), (machine_units a x A) as (UA & FA & _). pose proof (machine_nonzero b y B Y0) as Nb. pose proof A as [(Wa & _) _ _ _ _]. pose proof B as [(Wb & _) _ _ _ _].
  apply C53_release_returns_partial; auto; [|right; right; left; lia]. apply roomy; try assumption. lia.
Qed.

(** The remainder of any two machine integers. In a release build it always
    returns; what a debug build returns is the same. *)
Theorem C94_i64_remainders : forall m x y, is_i64 x -> is_i64 y -> y <> 0 ->
  exists a b, from_i64 m x = Ret a /\ from_i64 m y = Ret b /\
    (forall rs d, rem_to m a b zero = Ret (rs, d) -> rs = Ok tt /\ as_i64 m d = Ret (Ok (remainder_computed x y))) /\
    (m = Release -> exists d, rem_to m a b zero = Ret (Ok tt, d)).
Proof.
  intros m x y Hx Hy Y0. destruct (i64_machine m x Hx) as (a & Ea & A), (i64_machine m y Hy) as (b & Eb & B). exists a, b. split; [exact Ea|]. split; [exact Eb|].
  split; [|intros ->; apply (machine_release a b x y A B Y0)].
  intros rs d E. destruct (machine_rem_computed m a b x y A B Y0 ltac:(unfold is_i64 in Hx; lia) rs d E) as (-> & W & C & _ & L & V). split; [reflexivity|].
  rewrite (as_i64_integer m d _ W C V). set (r := remainder_computed x y) in *. clearbody r. unfold checked_i64, is_i64 in *. destruct (Z.leb_spec (-9223372036854775808) r), (Z.leb_spec r 9223372036854775807); try reflexivity; lia.
Qed.
Print Assumptions C94_i64_remainders.
Theorem C94_u64_remainders : forall m x y, is_u64 x -> is_u64 y -> y <> 0 ->
  exists a b, from_u64 m x = Ret a /\ from_u64 m y = Ret b /\
    (forall rs d, rem_to m a b zero = Ret (rs, d) -> rs = Ok tt /\ as_u64 m d = Ret (Ok (remainder_computed x y))) /\
    (m = Release -> exists d, rem_to m a b zero = Ret (Ok tt, d)).
Proof.
  intros m x y Hx Hy Y0. destruct (u64_machine m x Hx) as (a & Ea & A), (u64_machine m y Hy) as (b & Eb & B). exists a, b. split; [exact Ea|]. split; [exact Eb|].
  split; [|intros ->; apply (machine_release a b x y A B Y0)]. unfold is_u64 in *.
  intros rs d E. destruct (machine_rem_computed m a b x y A B Y0 ltac:(lia) rs d E) as (-> & W & C & Z & L & V). split; [reflexivity|].
  rewrite (as_u64_integer m d _ W C Z V).
  assert (P : 0 <= remainder_computed x y).
  { unfold remainder_computed. destruct (_ && _ && _)%bool; [|apply Z.rem_nonneg; lia]. pose proof (Z.rem_bound_abs x y Y0). apply Z.mul_nonneg_nonneg; [|lia]. destruct (Z.eq_dec x 0) as [->|]; [cbn; lia|rewrite Z.sgn_pos; lia]. }
  set (r := remainder_computed x y) in *. clearbody r. unfold checked_u64. destruct (Z.leb_spec 0 r), (Z.leb_spec r 18446744073709551615); try reflexivity; lia.
Qed.
Print Assumptions C94_u64_remainders.
(** When that is Rust's [%]: always for divisors below 10^18 and for
    dividends smaller than the divisor; otherwise if dropping nine digits of the scaled operands does not
    change their quotient, and then only. *)
Theorem C94_when_right : forall x y, y <> 0 -> (remainder_computed x y = Z.rem x y <->
  Z.abs y < 10 ^ 18 \/ Z.abs x < Z.abs y \/ shortened_quotient x y = Z.abs x / Z.abs y \/ 2 * Z.abs (Z.rem x y) = Z.abs y).
Proof.
  intros x y Hy. pose proof (Z.rem_bound_abs x y Hy) as BR. unfold remainder_computed.
  destruct (Z.leb_spec (10 ^ 18) (Z.abs y)) as [Y|Y]; cbn [andb]; [|tauto]. destruct (Z.leb_spec (Z.abs y) (Z.abs x)) as [L|L]; cbn [andb]; [|tauto].
  destruct (Z.eqb_spec (shortened_quotient x y) (Z.abs x / Z.abs y)) as [S|S]; cbn [negb]; [tauto|].
  assert (X0 : x <> 0) by lia. assert (SX : Z.rem x y = Z.sgn x * Z.abs (Z.rem x y)).
  { destruct (Z.lt_trichotomy x 0) as [X|[X|X]]; [|lia|].
    - rewrite Z.sgn_neg by exact X. assert (Z.rem x y <= 0) by (apply Z.rem_nonpos; lia). lia.
    - rewrite Z.sgn_pos by exact X. assert (0 <= Z.rem x y) by (apply Z.rem_nonneg; lia). lia. }
  set (t := Z.abs (Z.rem x y)) in *. rewrite SX. clearbody t. split.
  - intros E. right. right. right. apply Z.mul_reg_l in E; [lia|]. destruct (Z.lt_trichotomy x 0) as [X|[X|X]]; [rewrite Z.sgn_neg; lia|lia|rewrite Z.sgn_pos; lia].
  - intros [H|[H|[H|H]]]; [lia|lia|tauto|]. f_equal. lia.
Qed.
Print Assumptions C94_when_right.

Example C94_example : is_i64 3000000000000000002 /\ is_i64 (-9223372036854775808) /\ remainder_computed 3000000000000000002 1000000000000000001 = 1 /\ Z.rem 3000000000000000002 1000000000000000001 = 1000000000000000000 /\
  remainder_computed (-9223372036854775808) 9223372036854775807 = -1 /\ remainder_computed (-9223372036854775808) 1000000000000000001 = -223372036854775799 /\
  remainder_computed (-3000000000000000002) 1000000000000000001 = -1.
Proof. unfold is_i64. split; [lia|]. split; [lia|]. vm_compute. auto. Qed.
Example C94_right_example : let a := dec "3000000000000000002.5" in let b := dec "1000000000000000001" in
  wf a /\ wf b /\ ~ (value b == 0)%Q /\ (forall k, k <= 0 -> group (value a / value b) k <= 999999989) /\ ~ guesses_right (scaled a) (scaled b) /\
  exists d, rem_to Debug a b zero = Ret (Ok tt, d) /\ (value d == 1 # 2)%Q.
Proof.
  intros a b. assert (G : forall k, k <= 0 -> group (value a / value b) k <= 999999989) by (apply small_groups; vm_compute; reflexivity).
  assert (W : wf a /\ wf b /\ ~ (value b == 0)%Q) by (subst a b; hyps). destruct W as (Wa & Wb & Nb).
  assert (R : exists d, rem_to Debug a b zero = Ret (Ok tt, d) /\ (value d == 1 # 2)%Q) by (eexists; split; [vm_compute; reflexivity|vm_compute; reflexivity]).
  split; [exact Wa|]. split; [exact Wb|]. split; [exact Nb|]. split; [exact G|]. split; [|exact R].
  intros T. specialize (T 12 0). assert (X : second_guess (scaled a) (scaled b) 12 0 = quotient_unit (scaled a) (scaled b) 0).
  { apply T; [lia|vm_compute; split; [discriminate|reflexivity]|lia|vm_compute; discriminate]. }
  vm_compute in X. discriminate X.
Qed.

(** ** Debug builds *)

(** C95: a debug build returns a remainder exactly if there is room for it and
    every first guess of long division is a unit. This for divisions whose units are guessed right, and those none of
    whose groups of nine integral digits is within ten of 10^9. *)
Theorem C95_debug_returns_iff : forall a b res, wf a -> wf b -> ~ (value b == 0)%Q ->
  guesses_right (scaled a) (scaled b) \/ (forall k, k <= 0 -> group (value a / value b) k <= 999999989) ->
  ((exists o, rem_to Debug a b res = Ret o) <-> remainder_fits Debug a b /\ guesses_small (scaled a) (scaled b)).
Proof.
  intros a b res Ha Hb Nb LT. split.
  - intros [o E]. split; [exact (proj1 (proj2 (C72_remainder_returns a b res Ha Hb)) o E)|]. rewrite value_zero_iff in Nb by exact Hb.
    unfold rem_to in E. cbv zeta in E. apply bind_inv in E. destruct E as (o' & E & _). exact (rem_debug_small a b res o' Ha Hb Nb LT E).
  - intros [[F TL] T2]. destruct LT as [T1|TG].
    + destruct (C53_remainder_returns_partial Debug a b res Ha Hb Nb TL T1 (fun _ => T2) F) as (d & E). eauto.
    + destruct (rem_near_returns a b res Ha Hb Nb TL TG T2 F) as (d & E). eauto.
Qed.
Print Assumptions C95_debug_returns_iff.

Lemma machine_small a b x y : machine a x -> machine b y -> y <> 0 -> Z.abs x < 10 ^ 20 -> (guesses_small (scaled a) (scaled b) <-> first_guess_fits x y).
Proof.
  intros A B Hy X. destruct (machine_units b y B) as (_ & FB & MB), (machine_units a x A) as (_ & FA & MA).
  unfold scaled. rewrite FA, FB, MA, MB. change (9 - 0) with 9. unfold first_guess_fits. assert (U0 : 0 <= Z.abs x) by lia. assert (V0 : 0 < Z.abs y) by lia.
  set (u := Z.abs x) in *. set (v := Z.abs y) in *. clearbody u v. clear A B FA FB MA MB Hy x y a b.
  pose proof (pow_base_pos 9 ltac:(lia)) as P9. change (10 ^ 9) with base. change (10 ^ 18) with (base ^ 2). change (10 ^ 20) with (100 * base ^ 2) in X. assert (B2 : base ^ 2 = base * base) by reflexivity. assert (BB : base = 1000000000) by reflexivity.
  assert (LEN : forall l, 1 <= l -> base ^ (l - 1) <= v < base ^ l -> base ^ (l + 9 - 1) <= v * base ^ 9 < base ^ (l + 9)).
  { intros l Hl [L1 L2]. replace (l + 9 - 1) with (l - 1 + 9) by lia. rewrite !(base_pow_split _ 9) by lia. split; [apply Z.mul_le_mono_nonneg_r; lia|apply Z.mul_lt_mono_pos_r; assumption]. }
  assert (SC : forall j, v * base ^ 9 * base ^ j <= u * base ^ 9 -> v * base ^ j <= u).
  { intros j H. apply Z.mul_le_mono_pos_r with (base ^ 9); [exact P9|]. replace (v * base ^ j * base ^ 9) with (v * base ^ 9 * base ^ j) by ring. exact H. }
  destruct (Z.lt_ge_cases v base) as [C1|C1]; [|destruct (Z.lt_ge_cases v (base ^ 2)) as [C2|C2]].
  - split; [intros _ [H _]; lia|]. intros _. apply (one_unit_small _ _ v 9); [lia|lia|reflexivity].
  - assert (L11 : base ^ (11 - 1) <= v * base ^ 9 < base ^ 11) by (apply (LEN 2); [lia|change (2 - 1) with 1; rewrite Z.pow_1_r; lia]).
    assert (VB : 1 <= v / base < base) by (clear - C1 C2 B2 BB; split; [apply Z.div_le_lower_bound; lia|apply Z.div_lt_upper_bound; lia]).
    assert (GS : forall j, 0 <= j -> first_guess (u * base ^ 9) (v * base ^ 9) 11 j = first_guess u v 2 j) by (intros j J; apply (guess_scale u v 2 j 9 ltac:(lia) J ltac:(lia) V0)).
    assert (E0 : first_guess u v 2 0 = base / (v / base + 1) * (u mod (v * base)) / base / (base / (v / base + 1) * v / base)) by (unfold first_guess, norm_factor, rest; reflexivity).
    cbv zeta. rewrite <- E0. split.
    + intros G _. destruct (Z.lt_ge_cases u v) as [UV|UV].
      * rewrite E0. rewrite Z.mod_small by (split; [exact U0|]; clear - UV V0 BB; rewrite BB; lia).
        pose proof (nf_facts (v / base) VB) as NF. cbv zeta in NF. destruct NF as (N2 & N3 & N4).
        set (f := base / (v / base + 1)) in *. clearbody f. assert (LE : f * u / base <= f * v / base) by (apply Z.div_le_mono; [lia|]; apply Z.mul_le_mono_nonneg_l; lia).
        assert (PD : 0 < f * v / base). { assert (f * (v / base) <= f * v / base); [|clear - H N4 BB; rewrite BB in *; lia]. apply Z.div_le_lower_bound; [lia|]. rewrite Z.mul_assoc, (Z.mul_comm base f), <- Z.mul_assoc. apply Z.mul_le_mono_nonneg_l; [lia|]. apply Z.mul_div_le. lia. }
        set (p := f * u / base) in *. set (q := f * v / base) in *. clearbody p q. apply Z.div_lt_upper_bound; [exact PD|]. clear - LE PD BB. rewrite BB. lia.
      * rewrite <- GS by lia. apply G; [lia|exact L11|lia|]. rewrite Z.pow_0_r, Z.mul_1_r. apply Z.mul_le_mono_nonneg_r; lia.
    + intros H len j Hl By Hj G. assert (EL : len = 11) by (apply (len_unique (v * base ^ 9)); try assumption; lia). rewrite EL, GS by exact Hj. apply SC in G.
      destruct (Z.eq_dec j 0) as [->|J0]; [apply H; split; assumption|]. destruct (Z.eq_dec j 1) as [->|J1].
      * pose proof (nf_facts (v / base) VB) as NF. cbv zeta in NF. destruct NF as (N2 & N3 & N4).
        assert (FE : first_guess u v 2 1 = base / (v / base + 1) * (u mod (v * base ^ 2)) / base ^ 2 / (base / (v / base + 1) * v / base)) by (unfold first_guess, norm_factor, rest; reflexivity). rewrite FE. clear FE E0 GS H.
        assert (RU : u mod (v * base ^ 2) = u). { apply Z.mod_small. split; [exact U0|]. apply Z.lt_le_trans with (1 := X). apply Z.mul_le_mono_nonneg_r; [rewrite B2, BB; lia|]. rewrite BB in C1. lia. }
        rewrite RU. set (f := base / (v / base + 1)) in *. clearbody f.
        assert (PD : base <= 3 * (f * v / base)). { assert (f * (v / base) <= f * v / base); [|clear - H N4; lia]. apply Z.div_le_lower_bound; [lia|]. rewrite Z.mul_assoc, (Z.mul_comm base f), <- Z.mul_assoc. apply Z.mul_le_mono_nonneg_l; [lia|]. apply Z.mul_div_le. lia. }
        assert (PN : f * u / base ^ 2 < 100 * base). { apply Z.div_lt_upper_bound; [rewrite B2, BB; lia|]. apply Z.lt_trans with (f * (100 * base ^ 2)); [apply Z.mul_lt_mono_pos_l; [lia|exact X]|]. replace (base ^ 2 * (100 * base)) with (base * (100 * base ^ 2)) by ring. apply Z.mul_lt_mono_pos_r; [rewrite B2, BB; lia|apply N2]. }
        set (p := f * u / base ^ 2) in *. set (q := f * v / base) in *. clearbody p q. apply Z.div_lt_upper_bound; [clear - PD BB; lia|]. clear - PD PN BB. rewrite BB in *. lia.
      * exfalso. assert (JJ : 2 <= j) by (clear - Hj J0 J1; lia). clear - G JJ C1 V0 X B2 BB. assert (G1 : base ^ 2 <= base ^ j) by (apply Z.pow_le_mono_r; [reflexivity|exact JJ]). assert (G2 : v * base ^ 2 <= v * base ^ j) by (apply Z.mul_le_mono_nonneg_l; [lia|exact G1]).
        assert (G3 : base * base ^ 2 <= v * base ^ 2) by (apply Z.mul_le_mono_nonneg_r; [rewrite B2, BB; lia|exact C1]). set (w := v * base ^ j) in *. clearbody w. set (w2 := v * base ^ 2) in *. clearbody w2. clear - G G2 G3 X B2 BB. rewrite B2, BB in *. lia.
  - split; [intros _ [_ H]; lia|]. intros _ len j Hl By Hj G. apply SC in G. destruct (Z.eq_dec j 0) as [->|J0].
    2:{ exfalso. assert (base ^ 1 <= base ^ j) by (apply Z.pow_le_mono_r; [reflexivity|lia]). rewrite Z.pow_1_r in H. assert (v * base <= v * base ^ j) by (apply Z.mul_le_mono_nonneg_l; lia). rewrite BB in *. lia. }
    unfold first_guess. cbv zeta. assert (R : rest (u * base ^ 9) (v * base ^ 9) 0 = u * base ^ 9).
    { unfold rest. change (base ^ (0 + 1)) with base. apply Z.mod_small. split; [apply Z.mul_nonneg_nonneg; lia|]. replace (v * base ^ 9 * base) with (v * base * base ^ 9) by ring. apply Z.mul_lt_mono_pos_r; [exact P9|]. clear - X C2 BB B2. rewrite B2, BB in *. lia. }
    rewrite R. replace (0 + len - 1) with (len - 1) by lia. destruct (lead_factor (v * base ^ 9) len Hl By) as [F1 F2]. set (f := norm_factor (v * base ^ 9) len) in *. clearbody f.
    pose proof (pow_base_pos (len - 1) ltac:(lia)) as PP. set (p := base ^ (len - 1)) in *. clearbody p. set (D := f * (v * base ^ 9) / p) in *.
    assert (FD : f * (v * base ^ 9) < p * Z.succ D) by (apply Z.mul_succ_div_gt, PP).
    assert (FU : f * (u * base ^ 9) <= 100 * (f * (v * base ^ 9))). { replace (100 * (f * (v * base ^ 9))) with (f * (100 * v * base ^ 9)) by ring. apply Z.mul_le_mono_nonneg_l; [clear - F1; lia|]. apply Z.mul_le_mono_nonneg_r; [clear - P9; lia|]. clear - X C2. lia. }
    clearbody D. set (s := f * (v * base ^ 9)) in *. set (t := f * (u * base ^ 9)) in *. clearbody s t. clear - F2 FD FU PP BB.
    assert (D0 : 0 < D) by (rewrite BB in F2; lia). apply Z.div_lt_upper_bound; [exact D0|]. apply Z.div_lt_upper_bound; [exact PP|].
    apply Z.le_lt_trans with (1 := FU). apply Z.lt_le_trans with (100 * (p * Z.succ D)); [lia|]. replace (100 * (p * Z.succ D)) with (p * (100 * Z.succ D)) by ring. apply Z.mul_le_mono_nonneg_l; [lia|]. rewrite BB. lia.
Qed.
Lemma machine_debug a b x y : machine a x -> machine b y -> y <> 0 -> Z.abs x < 10 ^ 20 -> ((exists d, rem_to Debug a b zero = Ret (Ok tt, d)) <-> first_guess_fits x y).
Proof.
  intros A B Hy Hx. rewrite <- (machine_small a b x y A B Hy Hx). destruct (machine_units b y B) as (UB & FB & MB), (machine_units a x A) as (UA & FA & _). pose proof (machine_nonzero b y B Hy) as Nb. pose proof A as [(Wa & _) _ _ _ _]. pose proof B as [(Wb & _) _ _ _ _].
  assert (LT : guesses_right (scaled a) (scaled b) \/ (forall k, k <= 0 -> group (value a / value b) k <= 999999989)).
  { destruct (Z.lt_ge_cases (Z.abs y) (10 ^ 18)) as [Y|Y].
    - left. apply C37_two_units; [exact Wb|]. exists (Z.abs y), 0. rewrite Z.pow_0_r, Z.mul_1_r. change (base ^ 2) with (10 ^ 18). split; [lia|]. split; [lia|exact MB].
    - right. apply (far_groups a b 0 x y A B). split; [exact Y|]. split; [exact Hx|]. intros k Hk; lia. }
  destruct (C95_debug_returns_iff a b zero Wa Wb Nb LT) as [I1 I2]. split.
  - intros [d E]. apply I1. eauto.
  - intros G. destruct I2 as [[rs d] E]; [split; [|exact G]; split; [right; right; left; lia|apply roomy; try assumption; lia]|]. destruct (C71_every_remainder Debug a b zero rs d Wa Wb E) as (_ & R & _). exists d. rewrite E. f_equal. f_equal. apply R, Nb.
Qed.
(** For machine integers: a debug build panics exactly when its first guess does not fit. *)
Theorem C95_i64_debug : forall x y, is_i64 x -> is_i64 y -> y <> 0 ->
  exists a b, from_i64 Debug x = Ret a /\ from_i64 Debug y = Ret b /\ ((exists d, rem_to Debug a b zero = Ret (Ok tt, d)) <-> first_guess_fits x y).
Proof.
  intros x y Hx Hy Y0. destruct (i64_machine Debug x Hx) as (a & Ea & A), (i64_machine Debug y Hy) as (b & Eb & B). exists a, b. split; [exact Ea|]. split; [exact Eb|].
  apply machine_debug; try assumption. unfold is_i64 in Hx. lia.
Qed.
Print Assumptions C95_i64_debug.
Theorem C95_u64_debug : forall x y, is_u64 x -> is_u64 y -> y <> 0 ->
  exists a b, from_u64 Debug x = Ret a /\ from_u64 Debug y = Ret b /\ ((exists d, rem_to Debug a b zero = Ret (Ok tt, d)) <-> first_guess_fits x y).
Proof.
  intros x y Hx Hy Y0. destruct (u64_machine Debug x Hx) as (a & Ea & A), (u64_machine Debug y Hy) as (b & Eb & B). exists a, b. split; [exact Ea|]. split; [exact Eb|].
  apply machine_debug; try assumption. unfold is_u64 in Hx. lia.
Qed.
Print Assumptions C95_u64_debug.

Example C95_example : is_i64 1000000000999999999 /\ ~ first_guess_fits 1000000000999999999 1000000001 /\ first_guess_fits 1000000000999999998 7000000003 /\ first_guess_fits (-9223372036854775808) (-1) /\
  (exists a b p, from_i64 Debug 1000000000999999999 = Ret a /\ from_i64 Debug 1000000001 = Ret b /\ rem_to Debug a b zero = Panic p) /\
  remainder_computed 1000000000999999999 1000000001 = 1000000000.
Proof.
  split; [unfold is_i64; lia|]. split. { intros H. specialize (H ltac:(lia)). vm_compute in H. discriminate H. }
  split; [intros _; vm_compute; reflexivity|]. split; [intros [H _]; vm_compute in H; exfalso; apply H; reflexivity|].
  split; [|vm_compute; reflexivity]. do 3 eexists. split; [vm_compute; reflexivity|]. split; [vm_compute; reflexivity|]. vm_compute. reflexivity.
Qed.
Example C95_general_example : let a := dec "12345678901234567890.5" in let b := dec "1.000000000000000000001" in
  wf a /\ wf b /\ ~ (value b == 0)%Q /\ (forall k, k <= 0 -> group (value a / value b) k <= 999999989) /\ (exists o, rem_to Debug a b zero = Ret o).
Proof.
  intros a b. assert (W : wf a /\ wf b /\ ~ (value b == 0)%Q) by (subst a b; hyps). destruct W as (Wa & Wb & Nb). split; [exact Wa|]. split; [exact Wb|]. split; [exact Nb|].
  split; [|eexists; vm_compute; reflexivity]. intros k Hk. refine (tame_integral_decide (-2) a b _ _ k _); [vm_compute; reflexivity|vm_compute; reflexivity|lia].
Qed.
