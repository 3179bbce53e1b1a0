(** * Properties: what the operations do on all operands (C69-C76), also where
    the simpler statements (C31, C34, C35, C37, C39, C40, C44, C53) fail. *)
From Coq Require Import ZArith List Bool String Lia QArith Qabs Lqa.
From Verif Require Import Rust Model_Base Model_Cmp Model_Round Model_Decimal Model_Arith Model_Serde Spec Spec_Div Spec_Rem Spec_History Lib Sign Basics QLib RoundTo RoundQ DivQ DivG2 DivFit Div5 DivBasics AddSubQ MulQ Robust Robust2 Robust3 Sound
  Prop_Compare Prop_AddSub Prop_Mul Prop_Round Prop_Div Prop_Rem Prop_Robust Prop_History Prop_Sound Tests Witness.
Import ListNotations.
Open Scope Z_scope.

(** C69: when division returns. In a release build exactly the divisions that
    fit (a zero operand always does); in a debug build nothing else does. *)
Lemma no_leading d p : (value d == 0)%Q -> ~ leading_digit d p.
Proof. intros V [L _]. rewrite V in L. exact (Qlt_not_le _ _ (pow10_pos p) L). Qed.
Theorem C69_division_returns : forall a b res incr, wf a -> wf b -> 0 <= incr -> sane_request a b incr ->
  ((exists o, div_to Release a b res incr = Ret o) <-> division_fits a b incr) /\
  (forall o, div_to Debug a b res incr = Ret o -> division_fits a b incr) /\
  (~ (value b == 0)%Q -> significant_units 1 b \/ tame (asked_units a b incr) a b -> ((exists o, div_to Debug a b res incr = Ret o) <-> division_fits a b incr)).
Proof.
  intros a b res incr Wa Wb Hi Sn.
  destruct (Qeq_dec (value b) 0) as [Vb|Vb].
  { assert (F : division_fits a b incr) by (intros p q _ L; destruct (no_leading b q Vb L)). split; [|split; [auto|tauto]].
    split; [auto|]. intros _. eexists. apply (div_dbz Release a b res incr Wa Wb Vb). }
  destruct (Qeq_dec (value a) 0) as [Va|Va].
  { assert (F : division_fits a b incr) by (intros p q L _; destruct (no_leading a p Va L)).
    pose proof (fun m => div_to_zero m a b res incr Wa Wb Va Vb) as Z. split; [|split; [auto|]]; intros; (split; [auto|]); intros _; eexists; apply Z. }
  split; [apply C35_release_returns_iff_it_fits; assumption|]. split.
  - intros o E. exact (proj2 (div_to_fits Debug a b res incr Wa Wb Va Vb Hi Sn) o E).
  - intros _ S. apply C35_returns_iff_it_fits_partial; try assumption. destruct S as [S|S]; [left|right; exact S]. split; [|auto].
    destruct S as (x & k & Hx & Hk & E). exists x, k. split; [|auto]. change (base ^ 1) with base in Hx. change (base ^ 2) with (base * base). unfold base in *. lia.
Qed.
Print Assumptions C69_division_returns.
Example C69_example : let a := dec "1" in let b := dec "1.000000000000000001" in wf a /\ wf b /\ sane_request a b 4 /\ (exists o, div_to Release a b zero 4 = Ret o) /\ division_fits a b 4 /\
  (exists o, div_to Debug a (dec "7") zero 4 = Ret o) /\ significant_units 1 (dec "7").
Proof.
  intros a b. split; [hyps|]. split; [hyps|]. split; [hyps|]. assert (R : exists o, div_to Release a b zero 4 = Ret o) by (eexists; vm_compute; reflexivity).
  split; [exact R|]. split; [|split; [eexists; vm_compute; reflexivity|sigu 7 0]].
  assert (Wa : wf a) by hyps. assert (Wb : wf b) by hyps. assert (Hi : 0 <= 4) by lia. assert (Sn : sane_request a b 4) by hyps.
  exact (proj1 (proj1 (C69_division_returns a b zero 4 Wa Wb Hi Sn)) R).
Qed.

(** C70: what is true of every quotient, whatever the digits. *)
Theorem C70_every_quotient : forall m a b res incr rs d, wf a -> wf b -> ~ (value b == 0)%Q -> div_to m a b res incr = Ret (rs, d) ->
  (rs = Ok tt \/ rs = Err Overflow) /\ (rs = Err Overflow <-> (pow10 81 <= Qabs (value a / value b))%Q) /\ (rs = Err Overflow -> d = zero) /\
  ~ negzero d /\ (~ (value d == 0)%Q -> neg d = xorb (neg a) (neg b)) /\ clean d /\ frac_digits d <= 36 /\
  (rs = Ok tt -> (Qabs (value a / value b) < pow10 (9 * iu d))%Q /\ (~ (value a == 0)%Q -> 0 < iu d -> (pow10 (9 * (iu d - 1)) <= Qabs (value a / value b))%Q)) /\
  (m = Debug -> wf d /\ nohidden d).
Proof.
  intros m a b res incr rs d Wa Wb Vb H. pose proof (C26_no_negative_zero_div m a b res incr rs d Wa Wb H) as NZ.
  assert (D : m = Debug -> wf d /\ nohidden d) by (intros ->; destruct (C36_debug_quotients_partial a b res incr rs d Wa Wb H) as (W & _ & N & _); auto).
  destruct (Qeq_dec (value a) 0) as [Va|Va].
  { assert (Q0 : (Qabs (value a / value b) == 0)%Q) by (rewrite Va; unfold Qdiv; rewrite Qmult_0_l; reflexivity).
    rewrite (div_to_zero m a b res incr Wa Wb Va Vb) in H. injection H as <- <-. rewrite Q0. split; [auto|].
    split; [split; [discriminate|intros X; exfalso; exact (Qlt_not_le _ _ (pow10_pos 81) X)]|]. split; [discriminate|]. split; [exact NZ|]. split; [intros X; exfalso; apply X; reflexivity|]. split; [hyps|].
    split; [change (0 <= 36); lia|]. split; [|exact D]. intros _. split; [apply pow10_pos|]. intros X. exfalso. exact (X Va). }
  destruct (C34_any_divisor_partial m a b res incr rs d Wa Wb Va Vb H) as (O1 & O2 & U & S & _ & F36 & C).
  split. { destruct (div_to_any m a b res incr rs d Wa Wb Va Vb H) as (_ & _ & _ & _ & e & _ & _ & [(_ & -> & _)|(_ & -> & _)]); auto. }
  split; [exact O1|]. split; [exact O2|]. split; [exact NZ|]. split; [exact S|]. split; [exact C|]. split; [exact F36|]. split; [|exact D].
  intros E. destruct (U E) as (e & [E1 E2] & I). split.
  - eapply Qlt_le_trans; [exact E2|]. apply pow10_le. lia.
  - intros _ P. replace (iu d) with e by lia. exact E1.
Qed.
Print Assumptions C70_every_quotient.
Example C70_example : let a := dec "-999999999000000002" in let b := dec "1.000000000000000001" in wf a /\ wf b /\ ~ (value b == 0)%Q /\
  (exists d, div_to Release a b zero 4 = Ret (Ok tt, d) /\ iu d = 2 /\ ~ wf d) /\
  (exists q, div_to Debug (dec "499999999500000000") (dec "999999999000000000.500000001") zero 4 = Ret (Ok tt, q)).
Proof.
  hyps; eexists; [|vm_compute; reflexivity]. split; [vm_compute; reflexivity|]. split; [vm_compute; reflexivity|].
  intros W. apply wf_units in W. inversion W as [|? ? H ?]. destruct H as [_ H]. vm_compute in H. discriminate H.
Qed.

(** C71: what is true of every remainder. *)
Theorem C71_every_remainder : forall m a b res rs d, wf a -> wf b -> rem_to m a b res = Ret (rs, d) ->
  (rs = Err DivisionByZero <-> (value b == 0)%Q) /\ (rs = Ok tt <-> ~ (value b == 0)%Q) /\ wf d /\ clean d /\ (tight a -> tight d) /\ ~ negzero d /\
  (~ (value d == 0)%Q -> neg d = neg a /\ (Qabs (value d) < 4 * Qabs (value b))%Q).
Proof.
  intros m a b res rs d Wa Wb H. destruct (Qeq_dec (value b) 0) as [Vb|Vb].
  - rewrite (rem_dbz m a b res Wa Wb Vb) in H. injection H as <- <-. split; [tauto|]. split; [split; [discriminate|tauto]|]. split; [hyps|]. split; [hyps|]. split; [intros _; hyps|]. split; [hyps|]. intros X. exfalso. apply X. reflexivity.
  - destruct (C37_any_remainder_partial m a b res rs d Wa Wb Vb H) as (-> & W & C & T & Z & S & L). split; [split; [discriminate|tauto]|]. split; [tauto|]. auto 10.
Qed.
Print Assumptions C71_every_remainder.
Example C71_example : let a := dec "-500000000000000000999999998000000000" in let b := dec "500000000000000000999999999" in
  wf a /\ wf b /\ tight a /\ exists d, rem_to Release a b zero = Ret (Ok tt, d) /\ ~ (value d == 0)%Q /\ rem_to Debug a (dec "-0.00") zero = Ret (Err DivisionByZero, zero).
Proof. hyps. eexists. split; [vm_compute; reflexivity|]. split; [vm_compute; discriminate|]. vm_compute. reflexivity. Qed.

(** C72: when the remainder returns. A release build panics exactly for a
    non-zero dividend smaller than the divisor and of fewer fractional units,
    whose integral units do not fit beside the fractional units of the divisor, and for
    operands that are [too_long]; a debug build does so as well. *)
Definition remainder_fits (m : build) (a b : fd) : Prop :=
  ((value a == 0)%Q \/ (Qabs (value b) <= Qabs (value a))%Q \/ fu b <= fu a \/ iu a + fu b <= 9) /\ ~ too_long m a b.
Theorem C72_remainder_returns : forall a b res, wf a -> wf b ->
  ((exists o, rem_to Release a b res = Ret o) <-> remainder_fits Release a b) /\ (forall o, rem_to Debug a b res = Ret o -> remainder_fits Debug a b) /\
  (~ (value b == 0)%Q -> tame_integral a b -> ((exists o, rem_to Debug a b res = Ret o) <-> remainder_fits Debug a b)).
Proof.
  intros a b res Wa Wb.
  assert (P : forall m o, rem_to m a b res = Ret o -> remainder_fits m a b).
  { intros m o E. split; [|intros X; destruct (C53_too_long_panics_refuted m a b res Wa Wb X) as (p & Ep); rewrite Ep in E; discriminate E].
    destruct (Qeq_dec (value a) 0) as [Va|Va]; [auto|]. destruct (Qlt_le_dec (Qabs (value a)) (Qabs (value b))) as [L|L]; [|auto].
    destruct (Z.le_gt_cases (fu b) (fu a)) as [F|F]; [auto|]. destruct (Z.le_gt_cases (iu a + fu b) 9) as [R|R]; [auto|]. rewrite (C53_small_dividend_panics_refuted m a b res Wa Wb Va L F R) in E. discriminate E. }
  split; [|split; [apply P|]].
  - split; [intros (o & E); exact (P _ o E)|]. intros [F TL]. destruct (Qeq_dec (value b) 0) as [Vb|Vb]; [eexists; apply (rem_dbz Release a b res Wa Wb Vb)|].
    destruct (C53_release_returns_partial a b res Wa Wb Vb TL F) as (d & E). eauto.
  - intros Vb T. split; [intros (o & E); exact (P _ o E)|]. intros [F TL]. destruct (C37_tame_quotients a b Wa Wb Vb T) as [G1 G2].
    destruct (C53_remainder_returns_partial Debug a b res Wa Wb Vb TL G1 (fun _ => G2) F) as (d & E). eauto.
Qed.
Print Assumptions C72_remainder_returns.
Example C72_example : let a := dec "1" in let b := dec "2.0000000000000000000000000000000000000000000000000000000000000001" in
  exists p p', mul_to Debug a a zero = Ret (Ok tt, p') /\ mul_to Debug p' a zero = Ret (Ok tt, p) /\ wf p /\ wf b /\ iu p + fu b = 10 /\ (forall m, ~ remainder_fits m p b) /\ (forall m, remainder_fits m p' b) /\
  (forall m, exists d, rem_to m p' b zero = Ret (Ok tt, d)).
Proof.
  do 2 eexists. split; [vm_compute; reflexivity|]. split; [vm_compute; reflexivity|]. split; [hyps|]. split; [hyps|]. split; [vm_compute; reflexivity|]. split; [|split].
  - intros m [[X|[X|[X|X]]] _]; vm_compute in X; try discriminate X; apply X; reflexivity.
  - intros m. split; [right; right; right; vm_compute; discriminate|]. intros (X & _). vm_compute in X. discriminate X.
  - intros [|]; eexists; vm_compute; reflexivity.
Qed.

(** C73: the outcome of every multiplication of regular decimals: a panic,
    Overflow, or the product truncated towards zero with less than two units
    in the last place for every dropped unit (at most nine). *)
Theorem C73_every_product : forall m a b res, regular a -> regular b ->
  let kept := product_frac_units a b in let lost := product_lost_units a b in
  let room := int_digits a + int_digits b <= 119 /\ frac_digits a + frac_digits b <= 119 /\
    (81 < int_digits a + int_digits b \/ lost < iu a + fu a \/ (m = Release /\ lost = iu a + fu a)) in
  (((value a == 0)%Q \/ (value b == 0)%Q) /\ mul_to m a b res = Ret (Ok tt, zero)) \/
  (~ (value a == 0)%Q /\ ~ (value b == 0)%Q /\
   ((~ room /\ exists p, mul_to m a b res = Panic p) \/
    (room /\ 81 < int_digits a + int_digits b /\ mul_to m a b res = Ret (Err Overflow, zero)) \/
    (room /\ int_digits a + int_digits b <= 81 /\ exists d, mul_to m a b res = Ret (Ok tt, d) /\ wf d /\ clean d /\ tight d /\
       int_digits d = 9 * product_int_units a b /\ frac_digits d = Z.min (frac_digits a + frac_digits b) (9 * kept) /\
       (~ (value d == 0)%Q -> neg d = xorb (neg a) (neg b)) /\ ~ negzero d /\
       (Qabs (value d) <= Qabs (value a * value b))%Q /\ (lost = 0 -> (value d == value a * value b)%Q) /\
       (0 < lost -> (Qabs (value a * value b) < Qabs (value d) + inject_Z (2 * Z.min 9 lost) * pow10 (- (9 * kept)))%Q)))).
Proof.
  intros m a b res (Wa & Ca & Ta & Na) (Wb & Cb & Tb & Nb) kept lost room.
  destruct (Qeq_dec (value a) 0) as [Za|Za]; [left; split; [auto|]; apply (C32_zero_absorbs m b a res Wb Wa Cb Ca Za)|].
  destruct (Qeq_dec (value b) 0) as [Zb|Zb]; [left; split; [auto|]; apply (C32_zero_absorbs m a b res Wa Wb Ca Cb Zb)|]. right. split; [exact Za|]. split; [exact Zb|].
  pose proof (C31_multiplication_returns_iff_partial m a b res Wa Wb Ca Cb Ta Tb) as R. destruct (mul_to m a b res) as [[rs d]|p] eqn:E.
  - assert (Room : room) by (destruct (proj1 R (ex_intro _ _ eq_refl)) as [X|[X|X]]; [tauto|tauto|exact X]). right.
    destruct (C30_overflow_iff_too_many_digits m a b res rs d Wa Wb Ca Cb Ta Tb E) as (O1 & O2 & O3).
    destruct (Z.lt_ge_cases 81 (int_digits a + int_digits b)) as [L|L].
    + left. split; [exact Room|]. split; [exact L|]. assert (X : rs = Err Overflow) by (apply O2; auto). rewrite X, (O3 X). reflexivity.
    + right. split; [exact Room|]. split; [exact L|]. assert (X : rs = Ok tt) by (destruct O1 as [X|X]; [exact X|]; apply O2 in X; lia). subst rs. exists d. split; [reflexivity|].
      destruct (C29_sign_and_shape m a b res d Wa Wb Ca Cb Ta Tb E) as (Wd & Cd & Td & Sd & SH). destruct (SH Za Zb) as [S1 S2].
      pose proof (C26_no_negative_zero_mul m a b res _ d Wa Wb Ca Cb Ta Tb E) as NZ. destruct (C29_truncation_error m a b res d Wa Wb Ca Cb Ta Tb E) as (T0 & T1 & _ & T2). fold lost in T1, T2. fold kept in T0, T1, T2.
      split; [exact Wd|]. split; [exact Cd|]. split; [exact Td|]. split; [exact S1|]. split; [exact S2|]. split; [exact Sd|]. split; [exact NZ|].
      assert (K0 : 0 <= kept). { unfold kept, product_frac_units, product_int_units. pose proof (frac_le_fu a Wa) as [[? _] _]. pose proof (frac_le_fu b Wb) as [[? _] _].
        assert (0 <= units_for (frac_digits a + frac_digits b)) by (unfold units_for; apply Z.div_le_lower_bound; lia). assert (units_for (int_digits a + int_digits b) <= 9) by (unfold units_for; apply Z.lt_succ_r, Z.div_lt_upper_bound; lia). lia. }
      assert (PB : (inject_Z (base ^ kept) == pow10 (9 * kept))%Q) by (rewrite pow10_nonneg by lia; unfold base; change 1000000000 with (10 ^ 9); rewrite <- Z.pow_mul_r by lia; reflexivity).
      pose proof (pow10_pos (9 * kept)) as Pp. pose proof (pow10_inv (9 * kept)) as Pi.
      rewrite !PB in *. set (x := Qabs (value a * value b)) in *. set (y := Qabs (value d)) in *. set (p := pow10 (9 * kept)) in *. set (i := pow10 (- (9 * kept))) in *.
      assert (LE : (y <= x)%Q). { destruct (Qlt_le_dec x y) as [Lt|Le]; [|exact Le]. exfalso. clearbody x y p i. clear - Lt T0 Pp. nra. }
      split; [exact LE|]. split.
      * intros L0. specialize (T1 L0). assert (XY : (x == y)%Q). { clearbody x y p i. clear - T1 Pp. assert (~ (p == 0)%Q) by lra. assert (x - y == 0)%Q by (apply (Qmult_inj_r _ _ p); [assumption|rewrite T1; ring]). lra. }
        destruct (Qeq_dec (value d) 0) as [Vd|Vd].
        { exfalso. assert (Y0 : (y == 0)%Q) by (unfold y; rewrite Vd; reflexivity). rewrite Y0 in XY. unfold x in XY. assert (Z0 : (value a * value b == 0)%Q). { destruct (Qlt_le_dec (value a * value b) 0) as [N|N]; [rewrite Qabs_neg in XY by (apply Qlt_le_weak, N)|rewrite Qabs_pos in XY by exact N]; lra. }
          apply Qmult_integral in Z0. tauto. }
        specialize (Sd Vd). unfold x, y in XY. rewrite Qabs_Qmult in XY. 
        destruct (neg a) eqn:A, (neg b) eqn:B, (neg d) eqn:D; cbn in Sd; try discriminate Sd;
          (first [pose proof (neg_le a Wa A) as Ha; rewrite (Qabs_neg (value a)) in XY by exact Ha|pose proof (pos_ge a Wa A) as Ha; rewrite (Qabs_pos (value a)) in XY by exact Ha]);
          (first [pose proof (neg_le b Wb B) as Hb; rewrite (Qabs_neg (value b)) in XY by exact Hb|pose proof (pos_ge b Wb B) as Hb; rewrite (Qabs_pos (value b)) in XY by exact Hb]);
          (first [pose proof (neg_le d Wd D) as Hd; rewrite (Qabs_neg (value d)) in XY by exact Hd|pose proof (pos_ge d Wd D) as Hd; rewrite (Qabs_pos (value d)) in XY by exact Hd]);
          clear - XY; set (u := value a) in *; set (v := value b) in *; set (w := value d) in *; clearbody u v w; first [lra|setoid_replace (u * v)%Q with (- u * - v)%Q by ring; lra|setoid_replace (u * v)%Q with (- (- u * v))%Q by ring; lra|setoid_replace (u * v)%Q with (- (u * - v))%Q by ring; lra].
      * intros L0. specialize (T2 L0). assert (I0 : (0 < i)%Q) by apply pow10_pos. set (c := inject_Z (2 * Z.min 9 lost)) in *. clearbody c x y p i. clear - T2 Pp Pi I0.
        assert (X : ((x - y) * p * i < c * i)%Q) by (apply Qmult_lt_compat_r; assumption). setoid_replace ((x - y) * p * i)%Q with ((x - y) * (i * p))%Q in X by ring. rewrite Pi in X. lra.
  - left. split; [|eauto]. intros Room. destruct (proj2 R (or_intror (or_intror Room))) as (o & X). discriminate X.
Qed.
Print Assumptions C73_every_product.
Example C73_example : let a := dec "1.000000000000000000000000000001" in let b := dec "-0.999999999999999999999999999999" in let c := dec ".5" in let e := dec "10000000000000000000000000000000000000000000000000" in
  regular a /\ regular b /\ regular c /\ regular e /\ product_lost_units a b = 4 /\ (exists d, mul_to Debug a b zero = Ret (Ok tt, d)) /\ mul_to Debug c c zero = Panic PAssert /\
  (exists d, mul_to Release c c zero = Ret (Ok tt, d)) /\ mul_to Debug e e zero = Ret (Err Overflow, zero).
Proof. cbv zeta. do 4 (split; [hyps|]). split; [vm_compute; reflexivity|]. split; [eexists; vm_compute; reflexivity|]. split; [vm_compute; reflexivity|]. split; [eexists; vm_compute; reflexivity|]. vm_compute. reflexivity. Qed.

(** C74: what [round_to] does for every position up to 127: halves away from
    zero, but truncation at positions that are negative multiples of nine, and zero at
    and above the declared integral digits; a panic exactly if the digits do not fit. *)
Definition rounded (a : fd) (f : Z) : Q :=
  if f <? 0 then if int_digits a <=? - f then 0%Q else if f mod 9 =? 0 then truncate_at (value a) f else round_at (value a) f
  else round_at (value a) f.
Theorem C74_every_rounding : forall m a res f, wf a -> nohidden a -> -9223372036854775807 < f <= 127 ->
  let fits := iu a + units_for (Z.max 0 f) <= 9 /\ (Qabs (rounded a f) < pow10 (9 * (9 - units_for (Z.max 0 f))))%Q in
  ((exists d, round_to m a res f = Ret d) <-> fits) /\
  (forall d, round_to m a res f = Ret d -> (value d == rounded a f)%Q /\ frac_digits d = Z.max 0 f /\ wf d /\ nohidden d /\ (clean a -> clean d) /\ (tight a -> tight d) /\ (- f < int_digits a -> neg d = neg a)).
Proof.
  intros m a res f Wa Na Hf fits. unfold fits, rounded. clear fits. pose proof (wf_counts a Wa) as CA. destruct (Z.ltb_spec f 0) as [F0|F0].
  - replace (Z.max 0 f) with 0 by lia. change (units_for 0) with 0. rewrite Z.add_0_r. change (9 * (9 - 0)) with 81. destruct (Z.leb_spec (int_digits a) (- f)) as [D|D].
    + destruct (C39_round_to_above_the_digits_partial m a res f Wa ltac:(lia) D) as (E & _). split.
      * split; [intros _|intros _; eauto]. split; [lia|]. apply pow10_pos.
      * intros d X. rewrite E in X. injection X as <-. split; [reflexivity|]. split; [reflexivity|]. split; [hyps|]. split; [hyps|]. split; [intros _; hyps|]. split; [intros _; hyps|]. intros Y. lia.
    + set (v := if f mod 9 =? 0 then truncate_at (value a) f else round_at (value a) f).
      pose proof (C39_round_to_negative_partial m a res f Wa F0 D) as S. cbv zeta in S. fold v in S. destruct S as [(d & E & (W & N & F & C & T & _) & Hd & Td & V)|(E & B)].
      * split; [split; [intros _|intros _; eauto]|].
        -- split; [lia|]. rewrite <- V. eapply Qlt_le_trans; [apply (value_bound d W)|]. apply pow10_le. pose proof (wf_counts d W). lia.
        -- intros d' X. rewrite E in X. injection X as <-. auto 10.
      * split; [split; [intros (d & X); rewrite E in X; discriminate X|intros [_ X]; exfalso; exact (B X)]|]. intros d X. rewrite E in X. discriminate X.
  - replace (Z.max 0 f) with f by lia. split; [apply C38_round_to_returns_iff_room; auto; lia|]. intros d X.
    destruct (C38_round_to_is_half_away m a res f d Wa ltac:(lia) (or_intror Na) X) as (W & V & F & N & H & C & T). auto 10.
Qed.
Print Assumptions C74_every_rounding.
Example C74_example : let a := dec "-1999999999.5" in wf a /\ nohidden a /\
  map (fun f => (Qred (rounded a f), match round_to Debug a zero f with Ret d => to_string Debug d (-1) | Panic p => Panic p end)) [100; 10; 0; -1; -9; -10] =
  [((-3999999999 # 2)%Q, Panic PIndex); ((-3999999999 # 2)%Q, Ret (bytes "-1999999999.5000000000")); (inject_Z (-2000000000), Ret (bytes "-2000000000"));
   (inject_Z (-2000000000), Ret (bytes "-2000000000")); (inject_Z (-1000000000), Ret (bytes "-1000000000")); (0%Q, Ret (bytes "0"))].
Proof. hyps. Qed.

(** C75: what [round] does in place: the same, except that a result of more
    fractional units keeps the old lowest units, which become further digits. *)
Lemma round_no_room m a f : wf a -> frac_digits a <= f <= 127 -> fu a < units_for f -> 9 < iu a + units_for f -> exists p, round m a f = Panic p.
Proof.
  intros Wa Hf G R. pose proof (wf_counts a Wa) as CA. destruct (round m a f) as [d|p] eqn:E; [|eauto]. exfalso.
  unfold round in E. rewrite intg_units_ok, frac_units_ok, !bind_Ret in E by assumption. cbv zeta in E. unfold frac in E. fold (frac_digits a) in E.
  replace (f >=? frac_digits a) with true in E by lia. rewrite as_i8_id in E by lia. destruct (Z.le_gt_cases f 119) as [L|L].
  - rewrite get_units_ok, bind_Ret in E by lia. replace (units_for f =? fu a) with false in E by lia. rewrite usize_ok, bind_Ret in E by (clear - G CA L; unfold units_for in *; lia).
    destruct (copy_within _ _ _ _) as [l|p] eqn:K; [|discriminate E]. apply copy_within_inv in K. rewrite (wf_zlen a Wa) in K. lia.
  - destruct (get_units_big m f ltac:(lia)) as (p & K). rewrite K in E. discriminate E.
Qed.
Theorem C75_every_rounding_in_place : forall m a res f, wf a -> clean a -> -9223372036854775807 < f <= 127 ->
  (units_for f <= fu a -> round m a f = round_to m a res f) /\
  (fu a < units_for f -> 9 < iu a + units_for f -> exists p p', round m a f = Panic p /\ round_to m a res f = Panic p') /\
  (fu a < units_for f -> iu a + units_for f <= 9 -> exists d, round m a f = Ret d /\ wf d /\ clean d /\ frac_digits d = f /\ neg d = neg a /\ 
     (Qabs (value d) == Qabs (value a) + inject_Z (magnitude a mod base ^ (units_for f - fu a)) * pow10 (- (9 * units_for f)))%Q).
Proof.
  intros m a res f Wa Ca Hf. pose proof (wf_counts a Wa) as CA. pose proof (frac_le_fu a Wa) as [[FA1 FA2] FA3].
  assert (UF : 9 * units_for f - 8 <= f <= 9 * units_for f) by (unfold units_for; pose proof (Z.div_mod (f + 8) 9); pose proof (Z.mod_pos_bound (f + 8) 9); lia).
  split; [|split].
  - intros L. apply C40_in_place_agrees_partial; auto. destruct (Z.eq_dec (units_for f) (fu a)) as [E|E]; [auto|left; lia].
  - intros G R. destruct (round_no_room m a f Wa ltac:(lia) G R) as (p & E). exists p.
    destruct (round_to m a res f) as [d|p'] eqn:X; [|eauto]. exfalso. destruct (round_to_grow m a res f Wa ltac:(lia)) as [(Y & _)|(_ & Y)]; [lia|]. destruct Y as (p' & Y). rewrite Y in X. discriminate X.
  - intros G R. destruct (round_grow m a f Wa Ca ltac:(clear - G R UF CA FA1 FA2 FA3; lia) G R) as (d & E & W & EI & EF & C & M). exists d. split; [exact E|]. split; [exact W|]. split; [exact C|]. split; [exact EF|].
    split; [unfold neg; rewrite EI; reflexivity|]. rewrite (Qabs_value_pow d W), (Qabs_value_pow a Wa), M. replace (fu d) with (units_for f) by (unfold fu, frac_digits; rewrite EF; reflexivity).
    rewrite inject_Z_plus, inject_Z_mult. replace (base ^ (units_for f - fu a)) with (10 ^ (9 * (units_for f - fu a))) at 1 by (unfold base; change 1000000000 with (10 ^ 9); rewrite <- Z.pow_mul_r by lia; reflexivity).
    rewrite <- pow10_nonneg by lia. rewrite Qmult_plus_distr_l. apply Qplus_comp; [|reflexivity]. rewrite (Qmult_comm (pow10 _)), <- Qmult_assoc, <- pow10_add.
    replace (9 * (units_for f - fu a) + - (9 * units_for f)) with (- (9 * fu a)) by lia. reflexivity.
Qed.
Print Assumptions C75_every_rounding_in_place.
Example C75_example : let a := dec "-1.5" in wf a /\ clean a /\ (exists d, round Debug a 10 = Ret d /\ to_string Debug d (-1) = Ret (bytes "-1.5000000005")) /\ magnitude a mod base ^ (units_for 10 - fu a) = 500000000 /\
  (exists d, round Debug a 9 = Ret d /\ to_string Debug d (-1) = Ret (bytes "-1.500000000")).
Proof.
  cbv zeta. split; [hyps|]. split; [hyps|]. split; [eexists; split; [vm_compute; reflexivity|vm_compute; reflexivity]|]. split; [vm_compute; reflexivity|]. eexists; split; [vm_compute; reflexivity|vm_compute; reflexivity].
Qed.

(** C76: a debug build stops rather than compute with a damaged decimal. Whatever
    is called, in whatever order, as long as no call panics: every decimal is well-formed, it
    compares with every other by value, and sums and differences that return are exact. *)
Theorem C76_debug_builds : forall cs st, history typed_call Debug (fun _ => zero) cs st -> forall i j,
  wf (st i) /\ (~ negzero (st i) -> ~ negzero (st j) -> cmp Debug (st i) (st j) = Ret (Qcompare (value (st i)) (value (st j)))) /\
  (forall res rs d, add_to Debug (st i) (st j) res = Ret (rs, d) -> rs = Ok tt /\ (value d == value (st i) + value (st j))%Q) /\
  (forall res rs d, sub_to Debug (st i) (st j) res = Ret (rs, d) -> rs = Ok tt /\ (value d == value (st i) - value (st j))%Q) /\
  (exists n, to_string Debug (st i) (-1) = Ret (numeral_bytes n) /\ canonical n /\ (numeral_value n == truncate_at (value (st i)) (frac_digits (st i)))%Q).
Proof.
  intros cs st H i j. pose proof (C44_debug_histories_partial cs st H i) as Wi. pose proof (C44_debug_histories_partial cs st H j) as Wj. split; [exact Wi|]. split; [|split; [|split]].
  - intros Zi Zj. apply cmp_numeric_nz; assumption.
  - intros res rs d X. destruct (C22_addition_is_exact Debug _ _ res rs d Wi Wj X) as (E & _ & V & _). auto.
  - intros res rs d X. destruct (C23_subtraction_is_exact Debug _ _ res rs d Wi Wj X) as (E & _ & V & _). auto.
  - destruct (Print.to_string_ok Debug (st i) (-1) Wi) as (n & E & C & _ & _ & V). exists n. auto.
Qed.
Print Assumptions C76_debug_builds.
(** A history of twelve calls in which the quotients, the in-place rounding and
    a negative zero all occur, and no call panics. *)
Example C76_example : exists st, history typed_call Debug (fun _ => zero)
  [Parse 0 (bytes "499999999500000000") false; Parse 1 (bytes "999999999000000000.500000001") false; Div 0 1 2 4; Rem 0 2 3; Parse 0 (bytes "5000000000") true;
   Parse 1 (bytes "10") false; Div 0 1 4 4; Parse 1 (bytes "-2") false; Mul 4 1 5; Parse 0 (bytes "1.25") false; Round 0 10; Div 1 6 7 4] st /\
  negzero (st 5%nat) /\ ~ nohidden (st 0%nat) /\ ~ negzero (st 4%nat) /\ ~ negzero (st 2%nat) /\ cmp Debug (st 4%nat) (st 2%nat) = Ret Gt.
Proof.
  eexists. split; [run_history; cbn [typed_call]; try exact I; split; [reflexivity|discriminate]|].
  split; [split; vm_compute; reflexivity|]. split; [intros N; vm_compute in N; discriminate N|]. split; [intros [N _]; vm_compute in N; discriminate N|]. split; [intros [N _]; vm_compute in N; discriminate N|].
  vm_compute. reflexivity.
Qed.
