(** * Properties: division (C34, C35, C36). *)
From Coq Require Import ZArith List Bool String Lia QArith Qabs.
From Verif Require Import Rust Model_Base Model_Cmp Model_Arith Model_Serde Spec Spec_Div Lib Sign Basics QLib Div5 DivQ DivG2 DivFit AddSubQ MulQ Tests Witness.
Import ListNotations.
Open Scope Z_scope.

Lemma neg_le d : wf d -> neg d = true -> (value d <= 0)%Q.
Proof. intros W N. pose proof (magnitude_nonneg d W). unfold value. rewrite N. unfold Qle. cbn [Qnum Qden]. lia. Qed.
Lemma pos_ge d : wf d -> neg d = false -> (0 <= value d)%Q.
Proof. intros W N. pose proof (magnitude_nonneg d W). unfold value. rewrite N. unfold Qle. cbn [Qnum Qden]. lia. Qed.

(** C34 is false. A silent wrong quotient in both builds: here the true
    quotient is 0.49999999999999999975..., the returned one 0.499999999. *)
Theorem C34_truncated_quotient_refuted : exists a b d, regular a /\ regular b /\
  a = dec "499999999500000000" /\ b = dec "999999999000000000.500000001" /\
  (forall m, div_to m a b zero 4 = Ret (Ok tt, d)) /\ ((9 # 10) * pow10 (-9) < value a / value b - value d)%Q /\ frac_digits d = 18.
Proof.
  exists (dec "499999999500000000"), (dec "999999999000000000.500000001"). eexists.
  split; [hyps|]. split; [hyps|]. split; [reflexivity|]. split; [reflexivity|]. split; [intros [|]; vm_compute; reflexivity|].
  split; vm_compute; reflexivity.
Qed.
Print Assumptions C34_truncated_quotient_refuted.
(** In a release build, also with a small dividend and divisor ... *)
Theorem C34_release_small_operands_refuted : exists d, div_to Release (dec "1") (dec "1.000000000000000001") zero 4 = Ret (Ok tt, d) /\
  to_string Release d (-1) = Ret (bytes "0.999999999000000002000000003").
Proof. eexists. split; [vm_compute; reflexivity|]. vm_compute. reflexivity. Qed.
Print Assumptions C34_release_small_operands_refuted.
(** ... and the result may not even be a decimal: a unit of 10^9 or more. *)
Theorem C34_release_unit_overflow_refuted : exists d, div_to Release (dec "999999999000000002") (dec "1.000000000000000001") zero 4 = Ret (Ok tt, d) /\
  Exists (fun u => base <= u) (fd_lsu d) /\ ~ wf d.
Proof.
  eexists. split; [vm_compute; reflexivity|]. split.
  - apply Exists_cons_hd. vm_compute. discriminate.
  - intros W. apply wf_units in W. inversion W as [|? ? H ?]. destruct H as [_ H]. vm_compute in H. discriminate H.
Qed.
Print Assumptions C34_release_unit_overflow_refuted.

(** What holds: if the non-zero digits of the divisor lie within two
    consecutive units, or the quotient is tame (no nine digits of it within ten
    of 10^9, and the divisor not much longer than the dividend or no nine
    digits below 36; see [Spec_Div]), every returned quotient is the truncated one. *)
Theorem C34_truncated_quotient_partial : forall m a b res incr d, wf a -> wf b -> ~ (value b == 0)%Q ->
  significant_units 2 b \/ tame (asked_units a b incr) a b -> 0 <= incr -> sane_request a b incr ->
  div_to m a b res incr = Ret (Ok tt, d) ->
  (value d == truncate_at (value a / value b) (frac_digits d))%Q /\
  wf d /\ clean d /\ nohidden d /\ ~ negzero d /\ (~ (value d == 0)%Q -> neg d = xorb (neg a) (neg b)).
Proof.
  intros m a b res incr d Ha Hb Nb S2 Hi Rm H.
  destruct (Qeq_dec (value a) 0) as [V|V].
  { rewrite (div_to_zero m a b res incr Ha Hb V Nb) in H. injection H as <-. split; [|hyps; intros X; exfalso; apply X; reflexivity].
    transitivity (truncate_at 0 (frac_digits zero)); [reflexivity|]. apply truncate_at_comp. rewrite V. unfold Qdiv. ring. }
  destruct (div_to_run_gen m a b res incr _ d Ha Hb V Nb Hi Rm (long_good_release a b incr Ha Hb S2) H) as (e & _ & _ & [(_ & ? & _)|(_ & _ & W & C & N & NZ & S & _ & _ & _ & E & _)]); [discriminate|].
  auto 10.
Qed.
Print Assumptions C34_truncated_quotient_partial.
(** The digits of a quotient of a non-zero dividend: the integral units it
    needs; the fractional units asked for, at most four and at most what is left of nine. *)
Theorem C34_quotient_units_partial : forall m a b res incr d, wf a -> wf b -> ~ (value a == 0)%Q -> ~ (value b == 0)%Q ->
  significant_units 2 b \/ tame (asked_units a b incr) a b -> 0 <= incr -> sane_request a b incr ->
  div_to m a b res incr = Ret (Ok tt, d) ->
  (Qabs (value a / value b) < pow10 (9 * iu d))%Q /\ (0 < iu d -> (pow10 (9 * (iu d - 1)) <= Qabs (value a / value b))%Q) /\
  frac_digits d = 9 * Z.min 4 (Z.min (9 - iu d) (Z.max (fu a + fu b) (units_for (frac_digits a + frac_digits b + incr)))).
Proof.
  intros m a b res incr d Ha Hb V Nb S2 Hi Rm H.
  destruct (div_to_run_gen m a b res incr _ d Ha Hb V Nb Hi Rm (long_good_release a b incr Ha Hb S2) H) as (e & E1 & E2 & [(_ & ? & _)|(_ & _ & W & C & N & NZ & S & I & F1 & F2 & E & _)]); [discriminate|].
  rewrite F1, I in *. split; [|split].
  - eapply Qlt_le_trans; [exact E2|]. apply pow10_mono. lia.
  - intros P. replace (Z.max 0 e) with e by lia. exact E1.
  - rewrite F2 at 1. reflexivity.
Qed.
Print Assumptions C34_quotient_units_partial.
(** Overflow is reported exactly if the quotient has more than 81 integral
    digits - whatever the divisor. *)
Theorem C34_overflow_iff : forall m a b res incr, wf a -> wf b -> ~ (value b == 0)%Q -> 0 <= incr -> div_room a b incr ->
  (Qabs (value a / value b) < pow10 81 -> forall e d, div_to m a b res incr <> Ret (Err e, d))%Q /\
  (pow10 81 <= Qabs (value a / value b) -> div_to m a b res incr = Ret (Err Overflow, zero))%Q.
Proof. exact div_overflow. Qed.
Print Assumptions C34_overflow_iff.
(** Up to ten significant digits, wherever the point is, are within two units. *)
Theorem C34_ten_digits : forall b x k, 0 < x < 10 ^ 10 -> 0 <= k -> magnitude b = x * 10 ^ k -> significant_units 2 b.
Proof. exact ten_digits. Qed.
Print Assumptions C34_ten_digits.
Theorem C34_room : forall a b incr, wf a -> wf b -> frac_digits a <= 36 -> frac_digits b <= 36 -> 0 <= incr <= 47 -> div_room a b incr.
Proof.
  intros a b incr Ha Hb Fa Fb Hi. pose proof (wf_counts a Ha). pose proof (wf_counts b Hb).
  assert (fu a <= 4) by (unfold fu, units_for; apply Z.lt_succ_r, Z.div_lt_upper_bound; lia).
  assert (fu b <= 4) by (unfold fu, units_for; apply Z.lt_succ_r, Z.div_lt_upper_bound; lia). unfold div_room. lia.
Qed.
Print Assumptions C34_room.
Example C34_example : let a := dec "-123456789012345678.000000001" in let b := dec "9876543.21012345" in
  wf a /\ wf b /\ ~ (value a == 0)%Q /\ ~ (value b == 0)%Q /\ significant_units 2 b /\ sane_request a b 4 /\
  (exists d, div_to Debug a b zero 4 = Ret (Ok tt, d) /\ to_string Debug d (-1) = Ret (bytes "-12499999887.187508494070234830310333802")) /\
  (exists d, div_to Release (dec "1") (dec "1.000000001") zero 4 = Ret (Ok tt, d) /\ significant_units 2 (dec "1.000000001")).
Proof.
  hyps.
  - sigu 9876543210123450 0.
  - eexists. split; [vm_compute; reflexivity|]. vm_compute. reflexivity.
  - eexists. split; [vm_compute; reflexivity|]. sigu 1000000001 0.
Qed.

(** Divisors of three and more units: tame quotients, with the divisor not
    much longer than the dividend, and with a longer divisor. *)
Example C34_tame_example : let a := dec "1" in let b := dec "3.141592653589793238" in let c := dec "-271.8281828459045235360287471" in let e := dec "2.718281828459045235360287471" in
  wf a /\ wf b /\ wf c /\ ~ (value a == 0)%Q /\ ~ (value b == 0)%Q /\ ~ (value c == 0)%Q /\ ~ (value e == 0)%Q /\
  tame (asked_units a b 4) a b /\ sane_request a b 4 /\ tame (asked_units c b 4) c b /\ sane_request c b 4 /\ tame (asked_units b e 4) b e /\ sane_request b e 4 /\
  iu a + fu a <= 8 /\ iu b + fu b <= 8 /\ iu c + fu c <= 8 /\ asked_units a b 4 = 3 /\ asked_units c b 4 = 4 /\
  (exists d, div_to Debug a b zero 4 = Ret (Ok tt, d) /\ to_string Debug d (-1) = Ret (bytes "0.318309886183790671584643101")) /\
  (exists d, div_to Debug c b zero 4 = Ret (Ok tt, d) /\ to_string Debug d (-1) = Ret (bytes "-86.525597943226508734519581379359819162")) /\
  (exists d, div_to Debug b e zero 4 = Ret (Ok tt, d) /\ to_string Debug d (-1) = Ret (bytes "1.155727349790921717739896194160108301")).
Proof.
  intros a b c e.
  assert (T1 : tame (asked_units a b 4) a b) by (apply (tame_low 1); vm_compute; (reflexivity || discriminate)).
  assert (T2 : tame (asked_units c b 4) c b) by (apply (tame_exact 0 0 (3141592653589793238 * 10 ^ 18)); [vm_compute; reflexivity..|]; split; [lia|]; split; [left; reflexivity|vm_compute; reflexivity]).
  assert (T3 : tame (asked_units b e 4) b e) by (apply (tame_exact 0 0 2718281828459045235360287471); [vm_compute; reflexivity..|]; split; [lia|]; split; [left; reflexivity|vm_compute; reflexivity]).
  split; [hyps|]. split; [hyps|]. split; [hyps|]. split; [hyps|]. split; [hyps|]. split; [hyps|]. split; [hyps|]. split; [exact T1|]. split; [hyps|]. split; [exact T2|]. split; [hyps|]. split; [exact T3|].
  clear T1 T2 T3. hyps; eexists; (split; [vm_compute; reflexivity|]); vm_compute; reflexivity.
Qed.

(** The nine digits after the last wanted are free: the guess of the last unit
    is then one too large (3 here), and is corrected. *)
Example C34_corrected_guess_example : let a := dec "3000000000000000002" in let b := dec "1000000000000000001" in wf a /\ wf b /\ ~ (value b == 0)%Q /\ asked_units a b 0 = 0 /\ group (value a / value b) 1 = 999999999 /\
  tame (asked_units a b 0) a b /\ sane_request a b 0 /\ forall m, exists d, div_to m a b zero 0 = Ret (Ok tt, d) /\ to_string m d (-1) = Ret (bytes "2").
Proof.
  intros a b. assert (T : tame (asked_units a b 0) a b) by (apply (tame_exact 0 0 (1000000000000000001 * 10 ^ 9)); [vm_compute; reflexivity..|]; split; [lia|]; split; [left; reflexivity|vm_compute; reflexivity]).
  split; [hyps|]. split; [hyps|]. split; [hyps|]. split; [vm_compute; reflexivity|]. split; [vm_compute; reflexivity|]. split; [exact T|]. clear T. split; [hyps|].
  intros [|]; eexists; (split; [vm_compute; reflexivity|]); vm_compute; reflexivity.
Qed.

(** C35 is false. In a debug build a failed assertion for 1 / 1.000000001;
    in both builds an index out of bounds for a dividend of nine units, and
    for a quotient of more than 127 integral digits; and large requests for
    fractional digits. *)
Theorem C35_division_never_panics_refuted :
  div_to Debug (dec "1") (dec "1.000000001") zero 4 = Panic PAssert /\
  (forall m, div_to m (dec "2000000000000000000000000000000000000.1234567890123456789012345678") (dec "0.000000001000000001") zero 4 = Panic PIndex) /\
  (forall m, div_to m (dec "10000000000000000000000000000000000000000000000000000000000000000")
    (dec ".00000000000000000000000000000000000000000000000000000000000000001") zero 4 = Panic PIndex) /\
  div_to Debug (dec "1") (dec "3") zero 120 = Panic POverflow /\ div_to Release (dec "1") (dec "3") zero 120 = Panic PIndex.
Proof. split; [|split; [|split; [|split]]]; try intros [|]; vm_compute; reflexivity. Qed.
Print Assumptions C35_division_never_panics_refuted.
(** ... or a request that wraps around to no fractional digits at all. *)
Theorem C35_large_request_refuted : forall m, (exists d, div_to m (dec "1") (dec "3") zero 256 = Ret (Ok tt, d) /\ (value d == 0)%Q /\ frac_digits d = 0).
Proof. intros [|]; eexists; (split; [vm_compute; reflexivity|]); split; vm_compute; reflexivity. Qed.
Print Assumptions C35_large_request_refuted.
(** What holds: a dividend of at most eight units is divided by every non-zero
    divisor whose digits lie within two units (within one, in a debug build), and by
    every divisor if the quotient is tame (in both builds). *)
Theorem C35_division_returns_partial : forall m a b res incr, wf a -> wf b -> ~ (value b == 0)%Q ->
  significant_units 2 b /\ (m = Debug -> significant_units 1 b) \/ tame (asked_units a b incr) a b -> iu a + fu a <= 8 -> 0 <= incr -> div_room a b incr ->
  exists o, div_to m a b res incr = Ret o.
Proof. intros. apply div_to_returns_gen; try assumption. apply good_returns, long_good_either; assumption. Qed.
Print Assumptions C35_division_returns_partial.
(** The exact condition. Whatever the build and the divisor, nothing that does
    not fit is divided (see [Spec_Div]); and under the conditions above everything
    else is. *)
Theorem C35_what_does_not_fit_panics : forall m a b res incr, wf a -> wf b -> ~ (value a == 0)%Q -> ~ (value b == 0)%Q -> 0 <= incr -> sane_request a b incr ->
  ~ division_fits a b incr -> exists p, div_to m a b res incr = Panic p.
Proof.
  intros m a b res incr Ha Hb Va Vb Hi Sn F. destruct (div_to m a b res incr) as [o|p] eqn:E; [|eauto].
  exfalso. apply F. exact (proj2 (div_to_fits m a b res incr Ha Hb Va Vb Hi Sn) o E).
Qed.
Print Assumptions C35_what_does_not_fit_panics.
Theorem C35_returns_iff_it_fits_partial : forall m a b res incr, wf a -> wf b -> ~ (value a == 0)%Q -> ~ (value b == 0)%Q ->
  significant_units 2 b /\ (m = Debug -> significant_units 1 b) \/ tame (asked_units a b incr) a b -> 0 <= incr -> sane_request a b incr ->
  ((exists o, div_to m a b res incr = Ret o) <-> division_fits a b incr).
Proof.
  intros m a b res incr Ha Hb Va Vb G Hi Sn. destruct (div_to_fits m a b res incr Ha Hb Va Vb Hi Sn) as [F1 F2]. split.
  - intros (o & E). exact (F2 o E).
  - apply F1. apply good_returns, long_good_either; assumption.
Qed.
Print Assumptions C35_returns_iff_it_fits_partial.
(** The division of [C35_division_never_panics_refuted] with nine units: the
    leading digits are at 36 and -9, and the quotient is to fill nine units; one fewer
    asked for and it fits. *)
Example C35_fits_example : let a := dec "2000000000000000000000000000000000000.1234567890123456789012345678" in let b := dec "0.000000001000000001" in let c := dec "7000000000" in
  wf a /\ wf b /\ ~ (value a == 0)%Q /\ ~ (value b == 0)%Q /\ significant_units 2 b /\ sane_request a b 4 /\ leading_digit a 36 /\ leading_digit b (-9) /\ 
  ~ division_fits a b 4 /\ (exists d, div_to Debug a c zero 4 = Ret (Ok tt, d)) /\ division_fits a c 4.
Proof.
  intros a b c. split; [hyps|]. split; [hyps|]. split; [hyps|]. split; [hyps|]. split; [sigu 1000000001 0|]. split; [hyps|]. split; [hyps|]. split; [hyps|]. split; [|split].
  - intros F. destruct (F 36 (-9) ltac:(hyps) ltac:(hyps)) as (_ & _ & _ & N). apply N. clear N. repeat split; vm_compute; (reflexivity || discriminate).
  - eexists. vm_compute. reflexivity.
  - intros p q [P1 P2] [Q1 Q2].
    assert (p = 36) as -> by (apply (leading_unique _ _ _ P1 P2); vm_compute; (reflexivity || discriminate)).
    assert (q = 9) as -> by (apply (leading_unique _ _ _ Q1 Q2); vm_compute; (reflexivity || discriminate)).
    clear. split; [vm_compute; discriminate|]. split; [vm_compute; discriminate|]. split; [split; vm_compute; discriminate|]. intros (_ & _ & X & _). vm_compute in X. discriminate X.
Qed.
Example C35_example : let a := dec "-12345678901234567890.5" in let b := dec "1000000000000.5" in let c := dec "-7000000000000000000" in
  wf a /\ wf b /\ wf c /\ ~ (value b == 0)%Q /\ iu a + fu a = 4 /\ significant_units 1 c /\ significant_units 2 c /\ div_room a c 4 /\
  (exists d, div_to Debug a c zero 4 = Ret (Ok tt, d) /\ to_string Debug d (-1) = Ret (bytes "1.763668414")).
Proof.
  hyps.
  - sigu 7 2.
  - sigu 7 2.
  - eexists. split; [vm_compute; reflexivity|]. vm_compute. reflexivity.
Qed.

(** The proof of what follows. *)
Lemma operand_facts m' q c res' : wf q -> clean q -> ~ negzero q -> wf c -> clean c -> ~ negzero c ->
  cmp m' q c = Ret (Qcompare (value q) (value c)) /\ 
  (forall rs d, add_to m' q c res' = Ret (rs, d) \/ add_to m' c q res' = Ret (rs, d) -> rs = Ok tt /\ wf d /\ clean d /\ (value d == value q + value c)%Q) /\
  (forall rs d, sub_to m' q c res' = Ret (rs, d) -> rs = Ok tt /\ wf d /\ clean d /\ (value d == value q - value c)%Q).
Proof.
  intros W C NZ Wc Cc Nc.
  split; [|split].
  - rewrite (cmp_numeric m' q c W Wc). destruct (Qcompare (value q) (value c)) eqn:E; try reflexivity.
    apply Qeq_alt in E. destruct (neg q) eqn:N1, (neg c) eqn:N2; try reflexivity; exfalso.
    + apply NZ. split; [exact N1|]. apply (Qle_antisym _ _ (neg_le q W N1)). rewrite E. apply (pos_ge c Wc N2).
    + apply Nc. split; [exact N2|]. apply (Qle_antisym _ _ (neg_le c Wc N2)). rewrite <- E. apply (pos_ge q W N1).
  - intros rs d [A|A].
    + destruct (add_exact m' q c res' rs d W Wc A) as (R & Wd & V & _). destruct (add_keeps m' q c res' rs d W Wc A) as (K & _). auto.
    + destruct (add_exact m' c q res' rs d Wc W A) as (R & Wd & V & _). destruct (add_keeps m' c q res' rs d Wc W A) as (K & _).
      split; [exact R|]. split; [exact Wd|]. split; [auto|]. rewrite V. ring.
  - intros rs d A. destruct (sub_exact m' q c res' rs d W Wc A) as (R & Wd & V & _). destruct (sub_keeps m' q c res' rs d W Wc A) as (K & _). auto.
Qed.
(** C36 is false: a quotient may declare one integral digit too few, and
    multiplication trusts the declaration. 5000000000 / 10 * 9 is 500000000. *)
Theorem C36_quotients_are_operands_refuted : exists q p, (forall m, div_to m (dec "5000000000") (dec "10") zero 4 = Ret (Ok tt, q)) /\
  (value q == value (dec "500000000"))%Q /\ ~ tight q /\ (forall m, eq m q (dec "500000000") = Ret true) /\
  (forall m, mul_to m q (dec "9") zero = Ret (Ok tt, p)) /\ (value p == value (dec "500000000"))%Q.
Proof.
  do 2 eexists. split; [intros [|]; vm_compute; reflexivity|]. split; [vm_compute; reflexivity|].
  split; [intros T; vm_compute in T; discriminate T|]. split; [intros [|]; vm_compute; reflexivity|]. split; [intros [|]; vm_compute; reflexivity|]. vm_compute. reflexivity.
Qed.
Print Assumptions C36_quotients_are_operands_refuted.
(** What holds: quotients can be compared, added and subtracted like any other
    decimal ... *)
Theorem C36_quotients_are_operands_partial : forall m a b res incr q, wf a -> wf b -> ~ (value b == 0)%Q ->
  significant_units 2 b \/ tame (asked_units a b incr) a b -> 0 <= incr -> sane_request a b incr -> div_to m a b res incr = Ret (Ok tt, q) ->
  forall m' c res', wf c -> clean c -> ~ negzero c ->
  cmp m' q c = Ret (Qcompare (value q) (value c)) /\ 
  (forall rs d, add_to m' q c res' = Ret (rs, d) \/ add_to m' c q res' = Ret (rs, d) -> rs = Ok tt /\ wf d /\ clean d /\ (value d == value q + value c)%Q) /\
  (forall rs d, sub_to m' q c res' = Ret (rs, d) -> rs = Ok tt /\ wf d /\ clean d /\ (value d == value q - value c)%Q).
Proof.
  intros m a b res incr q Ha Hb Nb S2 Hi Rm H m' c res' Wc Cc Nc.
  destruct (C34_truncated_quotient_partial m a b res incr q Ha Hb Nb S2 Hi Rm H) as (_ & W & C & _ & NZ & _).
  exact (operand_facts m' q c res' W C NZ Wc Cc Nc).
Qed.
Print Assumptions C36_quotients_are_operands_partial.
(** ... and they are regular, so that everything said of parsed decimals holds
    of them, if the leading digit of the dividend is at least as far up in its
    unit as the leading digit of the divisor. *)
Theorem C36_regular_quotients_partial : forall m a b res incr d p q, wf a -> wf b -> ~ (value b == 0)%Q ->
  significant_units 2 b \/ tame (asked_units a b incr) a b -> 0 <= incr -> sane_request a b incr -> leading_digit a p -> leading_digit b q -> q mod 9 <= p mod 9 ->
  div_to m a b res incr = Ret (Ok tt, d) -> regular d /\ ~ negzero d.
Proof.
  intros m a b res incr d p q Ha Hb Nb S2 Hi Rm Lp Lq Hpq H.
  assert (V : ~ (value a == 0)%Q). { intros V. destruct Lp as [Lp _]. rewrite V in Lp. exact (Qlt_not_le _ _ (pow10_pos p) Lp). }
  destruct (div_to_run_gen m a b res incr _ d Ha Hb V Nb Hi Rm (long_good_release a b incr Ha Hb S2) H) as (e & _ & _ & [(_ & ? & _)|(_ & _ & W & C & N & NZ & S & _ & _ & _ & E & T)]); [discriminate|].
  split; [|exact NZ]. split; [exact W|]. split; [exact C|]. split; [exact (T p q Lp Lq Hpq)|exact N].
Qed.
Print Assumptions C36_regular_quotients_partial.
Example C36_example : let a := dec "5000000000" in let b := dec "1.25" in
  wf a /\ wf b /\ ~ (value b == 0)%Q /\ significant_units 2 b /\ sane_request a b 4 /\ leading_digit a 9 /\ leading_digit b 0 /\ 0 mod 9 <= 9 mod 9 /\
  (exists q p, div_to Debug a b zero 4 = Ret (Ok tt, q) /\ regular q /\ mul_to Debug q (dec "9") zero = Ret (Ok tt, p) /\ (value p == value (dec "36000000000"))%Q).
Proof.
  hyps.
  - sigu 1250000000 0.
  - do 2 eexists. split; [vm_compute; reflexivity|]. split; [hyps|]. split; [vm_compute; reflexivity|]. vm_compute. reflexivity.
Qed.
