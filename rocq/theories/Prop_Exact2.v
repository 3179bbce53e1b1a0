(** * Properties: parsing in debug builds, the outcome of every sum, what can be observed (C79-C82). *)
From Coq Require Import ZArith List Bool String Lia QArith Qabs Lqa.
From Verif Require Import Rust Model_Base Model_Cmp Model_Round Model_Decimal Model_Arith Model_Serde Spec Spec_History Lib Sign Basics Cmp QLib AddSubQ ParseMain Scan ParseThms Print Conv Sound Laws4
  Prop_Compare Prop_AddSub Prop_Conv Prop_Print Prop_Parse Prop_Sound Tests Witness.
Import ListNotations.
Open Scope Z_scope.

(** C79: a debug build parses every string, of whatever length, right: the
    number written if the string is a numeral within the limits, otherwise the syntax error or a panic,
    and a panic only for more than 62 mantissa digits or an exponent part of more than ten bytes. *)
Theorem C79_parsing_in_debug_builds : forall bs,
  (exists n d, numeral_ok n /\ within_limits n /\ bs = numeral_bytes n /\ from_str Debug bs = Ret (Ok d) /\
     regular d /\ (value d == numeral_value n)%Q /\ neg d = is_minus (n_sign n) /\ frac_digits d = numeral_frac n) \/
  ((forall n, numeral_ok n -> within_limits n -> numeral_bytes n <> bs) /\
   (from_str Debug bs = Ret (Err ConversionSyntax) \/ ((62 < mantissa_digits bs \/ 11 <= exp_length bs) /\ from_str Debug bs = Panic POverflow))).
Proof.
  intros bs. assert (W0 : wf zero) by hyps. destruct (parse_debug_cases zero false bs W0) as [(n & d & EB & OK & WL & _)|(N & H)].
  - left. destruct (from_str_accepts Debug n OK WL) as (d' & E' & [PW PV PN PF PI PT PH PR] & C). exists n, d'. subst bs. unfold regular. auto 15.
  - right. split; [exact N|]. destruct H as [E|[L E]]; [left|right; split; [exact L|]]; unfold from_str, from_ascii_str; rewrite E; reflexivity.
Qed.
Print Assumptions C79_parsing_in_debug_builds.
Example C79_example : (exists d, from_str Debug (bytes "-12.50e1") = Ret (Ok d)) /\ from_str Debug (bytes "12..5") = Ret (Err ConversionSyntax) /\
  from_str Debug (map (fun _ => 48) (seq 0 128)) = Panic POverflow /\ from_str Debug (bytes "1e99999999999") = Panic POverflow.
Proof. split; [eexists; vm_compute; reflexivity|]. repeat split; vm_compute; reflexivity. Qed.

(** C80: the outcome of every sum and difference of decimals with nothing stored
    beyond their units: exact, or - exactly if there is no room - a panic. Never an [Err]. *)
Definition sum_fits (a b : fd) (same_sign : bool) : Prop :=
  let n := Z.max (iu a) (iu b) + Z.max (fu a) (fu b) in
  (value a == 0)%Q \/ (value b == 0)%Q \/
  (n <= 8 /\ (same_sign = false \/ n <= 7 \/ (Qabs (value a) + Qabs (value b) < pow10 (9 * Z.max (iu a) (iu b)))%Q)).
Lemma pow10_units n : 0 <= n -> (inject_Z (base ^ n) == pow10 (9 * n))%Q.
Proof. intros H. rewrite pow10_nonneg by lia. unfold base. change 1000000000 with (10 ^ 9). rewrite <- Z.pow_mul_r by lia. reflexivity. Qed.
Theorem C80_every_sum : forall m a b res, wf a -> wf b -> clean a -> clean b ->
  (sum_fits a b (eqb (neg a) (neg b)) /\ exists d, add_to m a b res = Ret (Ok tt, d) /\ wf d /\ clean d /\ (value d == value a + value b)%Q /\
     (~ (value a == 0)%Q -> ~ (value b == 0)%Q -> frac_digits d = Z.max (frac_digits a) (frac_digits b)) /\
     (tight a -> tight b -> tight d) /\ (nohidden a -> nohidden b -> nohidden d) /\ (~ negzero a -> ~ negzero b -> ~ negzero d)) \/
  (~ sum_fits a b (eqb (neg a) (neg b)) /\ exists p, add_to m a b res = Panic p).
Proof.
  intros m a b res Wa Wb Ca Cb. pose proof (wf_counts a Wa) as CA. pose proof (wf_counts b Wb) as CB.
  assert (R : (exists o, add_to m a b res = Ret o) <-> sum_fits a b (eqb (neg a) (neg b))).
  { rewrite (C22_addition_returns_iff_room m a b res Wa Wb Ca Cb). unfold sum_fits. rewrite pow10_units by lia. rewrite eqb_false_iff. tauto. }
  destruct (add_to m a b res) as [[rs d]|p] eqn:E; [left|right; split; [intros F; apply R in F; destruct F as (o & F); discriminate F|eauto]].
  split; [apply R; eauto|]. destruct (C22_addition_is_exact m a b res rs d Wa Wb E) as (-> & W & V & F). destruct (C22_addition_keeps_shape m a b res _ d Wa Wb E) as (C & T & N).
  exists d. split; [reflexivity|]. split; [exact W|]. split; [auto|]. split; [exact V|]. split; [exact F|]. split; [exact T|]. split; [exact N|]. intros Za Zb. exact (C26_no_negative_zero_add m a b res _ d Wa Wb Ca Cb Za Zb E).
Qed.
Print Assumptions C80_every_sum.
Theorem C80_every_difference : forall m a b res, wf a -> wf b -> clean a -> clean b ->
  (sum_fits a b (negb (eqb (neg a) (neg b))) /\ exists d, sub_to m a b res = Ret (Ok tt, d) /\ wf d /\ clean d /\ (value d == value a - value b)%Q /\
     (~ (value a == 0)%Q -> ~ (value b == 0)%Q -> frac_digits d = Z.max (frac_digits a) (frac_digits b)) /\
     (tight a -> tight b -> tight d) /\ (nohidden a -> nohidden b -> nohidden d) /\ (~ negzero a -> ~ negzero b -> ~ negzero d)) \/
  (~ sum_fits a b (negb (eqb (neg a) (neg b))) /\ exists p, sub_to m a b res = Panic p).
Proof.
  intros m a b res Wa Wb Ca Cb. pose proof (wf_counts a Wa) as CA. pose proof (wf_counts b Wb) as CB.
  assert (R : (exists o, sub_to m a b res = Ret o) <-> sum_fits a b (negb (eqb (neg a) (neg b)))).
  { rewrite (C23_subtraction_returns_iff_room m a b res Wa Wb Ca Cb). unfold sum_fits. rewrite pow10_units by lia. rewrite negb_false_iff, eqb_true_iff. tauto. }
  destruct (sub_to m a b res) as [[rs d]|p] eqn:E; [left|right; split; [intros F; apply R in F; destruct F as (o & F); discriminate F|eauto]].
  split; [apply R; eauto|]. destruct (C23_subtraction_is_exact m a b res rs d Wa Wb E) as (-> & W & V & F). destruct (C23_subtraction_keeps_shape m a b res _ d Wa Wb E) as (C & T & N).
  exists d. split; [reflexivity|]. split; [exact W|]. split; [auto|]. split; [exact V|]. split; [exact F|]. split; [exact T|]. split; [exact N|]. intros Za Zb. exact (C26_no_negative_zero_sub m a b res _ d Wa Wb Ca Cb Za Zb E).
Qed.
Print Assumptions C80_every_difference.
Example C80_example : let a := dec "999999999999999999999999999999999999.0000000000000000000000000001" in let b := dec "1" in let c := dec "-2.5" in
  wf a /\ wf b /\ wf c /\ clean a /\ clean b /\ clean c /\ (forall m, add_to m a b zero = Panic PIndex) /\ (forall m, exists d, add_to m a c zero = Ret (Ok tt, d)) /\
  (forall m, exists d, sub_to m a b zero = Ret (Ok tt, d)).
Proof.
  cbv zeta. do 6 (split; [hyps|]). split; [intros [|]; vm_compute; reflexivity|]. split; intros [|]; eexists; vm_compute; reflexivity.
Qed.

(** C81: nothing but the number, its sign and the two digit counts can be
    observed by printing, comparing and hashing; and if nothing is stored beyond the units, these
    determine the decimal, so that no operation at all can tell two such decimals apart. *)
Definition same_numeral (a b : fd) : Prop := (value a == value b)%Q /\ neg a = neg b /\ int_digits a = int_digits b /\ frac_digits a = frac_digits b.
Lemma same_hash m a b : wf a -> wf b -> same_numeral a b -> hash m a = hash m b /\ eq m a b = Ret true.
Proof.
  intros Wa Wb (V & S & I & F). assert (E : eq m a b = Ret true) by (destruct (C13_eq_is_numeric m a b Wa Wb) as (r & -> & H); f_equal; apply H; auto). split; [|exact E].
  assert (Ei : iu a = iu b) by (unfold iu; rewrite I; reflexivity). assert (Ef : fu a = fu b) by (unfold fu; rewrite F; reflexivity).
  pose proof (C17_hash_returns m a Wa) as Ha. pose proof (C17_hash_returns m b Wb) as Hb. rewrite Ha, Hb. f_equal. apply (C16_same_shape_partial m a b _ _ Wa Wb Ha Hb Ei Ef E).
Qed.
Theorem C81_what_can_be_observed : forall m a b, wf a -> wf b -> same_numeral a b ->
  (forall f, to_string m a f = to_string m b f) /\ hash m a = hash m b /\ eq m a b = Ret true /\ (forall c, wf c -> cmp m a c = cmp m b c /\ cmp m c a = cmp m c b).
Proof.
  intros m a b Wa Wb SN. destruct (same_hash m a b Wa Wb SN) as [H E]. destruct SN as (V & S & I & F). split; [|split; [exact H|split; [exact E|]]].
  - intros f. destruct (to_string_ok m a f Wa) as (n & En & Cn & Sn & Fn & Vn). destruct (to_string_ok m b f Wb) as (k & Ek & Ck & Sk & Fk & Vk). rewrite En, Ek.
    rewrite (C08_canonical_numerals_are_unique n k Cn Ck); [reflexivity|congruence|rewrite Fn, Fk, F; reflexivity|]. rewrite Vn, Vk, F. apply truncate_at_comp, V.
  - intros c Wc. rewrite !cmp_numeric by assumption. rewrite S. split; [rewrite (Qcompare_comp _ _ V _ _ (Qeq_refl (value c)))|rewrite (Qcompare_comp _ _ (Qeq_refl (value c)) _ _ V)]; reflexivity.
Qed.
Print Assumptions C81_what_can_be_observed.
Theorem C81_equal_is_identical : forall a b, wf a -> wf b -> clean a -> clean b -> same_numeral a b -> a = b.
Proof.
  intros a b Wa Wb Ca Cb SN. destruct (same_hash Debug a b Wa Wb SN) as [H _]. destruct SN as (V & S & I & F).
  rewrite (C17_hash_returns Debug a Wa), (C17_hash_returns Debug b Wb) in H. 
  assert (Ei : iu a = iu b) by (unfold iu; rewrite I; reflexivity). assert (Ef : fu a = fu b) by (unfold fu; rewrite F; reflexivity).
  unfold clean in Ca, Cb. rewrite Ei, Ef in H, Ca. set (n := Z.to_nat (iu b + fu b)) in *.
  assert (U : firstn n (fd_lsu a) = firstn n (fd_lsu b)).
  { apply Ret_inj in H. assert (HT : forall (x y : hash_write) l l', x :: l = y :: l' -> l = l') by (intros; congruence). do 3 apply HT in H. revert H.
    generalize (firstn n (fd_lsu a)) (firstn n (fd_lsu b)). induction l as [|x l IH]; intros [|y l'] X; try discriminate X; [reflexivity|]. injection X as X1 X2. rewrite X1, (IH l' X2). reflexivity. }
  assert (K : skipn n (fd_lsu a) = skipn n (fd_lsu b)).
  { assert (L : List.length (skipn n (fd_lsu a)) = List.length (skipn n (fd_lsu b))) by (rewrite !skipn_length, (wf_len a Wa), (wf_len b Wb); reflexivity).
    revert Ca Cb L. generalize (skipn n (fd_lsu a)) (skipn n (fd_lsu b)). induction l as [|x l IH]; intros [|y l'] X Y L; try discriminate L; [reflexivity|].
    inversion X; subst. inversion Y; subst. f_equal. apply IH; auto. }
  assert (G : fd_intg a = fd_intg b).
  { pose proof (wf_intg a Wa) as A. pose proof (wf_intg b Wb) as B. unfold neg in S. unfold int_digits in I. clear - S I A B.
    pose proof (Z.div_mod (fd_intg a) 128 ltac:(lia)) as X. pose proof (Z.div_mod (fd_intg b) 128 ltac:(lia)) as Y. pose proof (Z.mod_pos_bound (fd_intg a) 128 ltac:(lia)). pose proof (Z.mod_pos_bound (fd_intg b) 128 ltac:(lia)).
    destruct (Z.ltb_spec (fd_intg a) 0), (Z.ltb_spec (fd_intg b) 0); try discriminate S; lia. }
  destruct a as [ia fa la], b as [ib fb lb]. cbn [fd_intg fd_frac fd_lsu] in *. unfold frac_digits in F. cbn [fd_frac] in F. rewrite <- (firstn_skipn n la), <- (firstn_skipn n lb), U, K, G, F. reflexivity.
Qed.
Print Assumptions C81_equal_is_identical.
Example C81_example : exists a b, from_bytes_str Debug (dec "1000000000000000000") (bytes "-07.50") false = Ret (Ok tt, a) /\ from_bytes_str Debug zero (bytes "-07.50") false = Ret (Ok tt, b) /\
  wf a /\ wf b /\ same_numeral a b /\ ~ clean a /\ clean b /\ a <> b.
Proof.
  do 2 eexists. split; [vm_compute; reflexivity|]. split; [vm_compute; reflexivity|]. split; [hyps|]. split; [hyps|]. split; [repeat split; vm_compute; reflexivity|].
  split; [intros C; inversion C as [|? ? X]; discriminate|]. split; [hyps|]. discriminate.
Qed.

(** C82: parsing into a used decimal. Whatever the targets held and whether or
    not they are reset, the results cannot be told apart by the above; with [reset] they are identical. *)
Theorem C82_parsing_into_used_targets : forall m t1 t2 r1 r2 bs d1, wf t1 -> wf t2 -> mantissa_digits bs <= 127 ->
  from_bytes_str m t1 bs r1 = Ret (Ok tt, d1) -> exists d2, from_bytes_str m t2 bs r2 = Ret (Ok tt, d2) /\ wf d1 /\ wf d2 /\ same_numeral d1 d2 /\
    (forall k, iu d2 + fu d2 <= k -> nth (Z.to_nat k) (fd_lsu d2) 0 = if r2 then 0 else nth (Z.to_nat k) (fd_lsu t2) 0) /\
    (clean d1 -> clean d2 -> d1 = d2).
Proof.
  intros m t1 t2 r1 r2 bs d1 W1 W2 MD E. destruct (parse_sound m t1 r1 bs d1 W1 MD E) as (n & -> & OK & WL & [PW PV PN PF PI PT PH PR]).
  destruct (parse_accepts m t2 r2 n W2 OK WL) as (d2 & E2 & [QW QV QN QF QI QT QH QR]). exists d2. split; [exact E2|]. split; [exact PW|]. split; [exact QW|].
  assert (SN : same_numeral d1 d2) by (split; [rewrite PV, QV; reflexivity|split; [congruence|split; congruence]]). split; [exact SN|]. split.
  - intros k Lk.
    specialize (QR k Lk). unfold zn in QR. rewrite QR. unfold tgt. destruct r2; [|reflexivity]. unfold set_zero, reset_units. cbn [fd_lsu]. destruct (Z.to_nat k) as [|[|[|[|[|[|[|[|[|[|]]]]]]]]]]; reflexivity.
  - intros C1 C2. apply C81_equal_is_identical; assumption.
Qed.
Print Assumptions C82_parsing_into_used_targets.
Example C82_example : let t := dec "-123456789123456789.5" in wf t /\ wf zero /\ mantissa_digits (bytes "0.25") = 3 /\
  (exists d, from_bytes_str Debug t (bytes "0.25") false = Ret (Ok tt, d) /\ fd_lsu d <> fd_lsu (dec "0.25")) /\ from_bytes_str Debug t (bytes "0.25") true = Ret (Ok tt, dec "0.25").
Proof. cbv zeta. split; [hyps|]. split; [hyps|]. split; [vm_compute; reflexivity|]. split; [eexists; split; [vm_compute; reflexivity|vm_compute; discriminate]|]. vm_compute. reflexivity. Qed.
