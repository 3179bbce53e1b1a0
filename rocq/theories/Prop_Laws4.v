(** * Properties: rounded quotients and products, printed keys, order of strings (C65-C68). *)
From Coq Require Import ZArith List Bool String Lia QArith Qabs Qround Lqa Sorted.
From Verif Require Import Rust Model_Base Model_Cmp Model_Round Model_Decimal Model_Arith Model_Serde Spec Spec_Div Lib Sign AddSubQ Basics Cmp QLib RoundQ MulQ MulLaws DivBasics DivQ DivG2 DivFit ParseMain Scan ParseThms Conv History Laws Laws4
  Prop_Compare Prop_AddSub Prop_Conv Prop_Mul Prop_Print Prop_Parse Prop_Round Prop_Div Prop_Laws Prop_Laws2 Tests Witness.
Import ListNotations.
Open Scope Z_scope.

(** C65: division truncates; rounding its result to fewer digits gives nevertheless the
    correctly rounded quotient (the divisors and quotients of C34). *)
Theorem C65_rounded_quotients : forall m a b res incr q m' res' f r, wf a -> wf b -> ~ (value b == 0)%Q ->
  significant_units 2 b \/ tame (asked_units a b incr) a b -> 0 <= incr -> sane_request a b incr ->
  div_to m a b res incr = Ret (Ok tt, q) -> 0 <= f < frac_digits q -> round_to m' q res' f = Ret r ->
  (value r == round_at (value a / value b) f)%Q /\ frac_digits r = f /\ wf r.
Proof.
  intros m a b res incr q m' res' f r Wa Wb Nb S Hi Sn HD Hf HR.
  destruct (C34_truncated_quotient_partial m a b res incr q Wa Wb Nb S Hi Sn HD) as (V & Wq & Cq & Nq & _).
  assert (F127 : 0 <= f <= 127). { pose proof (frac_le_fu q Wq) as [[_ L] _]. pose proof (wf_counts q Wq). clear - L H Hf. lia. }
  destruct (C38_round_to_is_half_away m' q res' f r Wq F127 (or_introl (proj2 Hf)) HR) as (Wr & Vr & Fr & _).
  split; [|split; assumption]. rewrite Vr, (round_at_comp _ _ f V). apply round_truncate, Hf.
Qed.
Print Assumptions C65_rounded_quotients.
(** The same for the conversion to an integer: the quotient rounded half away from zero. *)
Theorem C65_quotients_to_integers : forall m a b res incr q m', wf a -> wf b -> ~ (value b == 0)%Q ->
  significant_units 2 b \/ tame (asked_units a b incr) a b -> 0 <= incr -> sane_request a b incr ->
  div_to m a b res incr = Ret (Ok tt, q) -> 0 < frac_digits q ->
  ((inject_Z (-9223372036854775808) <= value a / value b /\ value a / value b <= inject_Z 9223372036854775807)%Q -> as_i64 m' q = Ret (Ok (round_away (value a / value b)))) /\
  ((value a / value b <= inject_Z (-9223372036854775809) \/ inject_Z 9223372036854775808 <= value a / value b)%Q -> as_i64 m' q = Ret (Err ExceedsConversionTargetRange)).
Proof.
  intros m a b res incr q m' Wa Wb Nb S Hi Sn HD Hf.
  destruct (C34_truncated_quotient_partial m a b res incr q Wa Wb Nb S Hi Sn HD) as (V & Wq & Cq & _).
  destruct (C19_as_i64 m' q Wq Cq) as [I1 I2]. set (x := (value a / value b)%Q) in *. clearbody x.
  assert (T : forall z, (truncate_at (inject_Z z) (frac_digits q) == inject_Z z)%Q) by (intros z; apply (truncate_at_exact _ z 0); [lia|change (pow10 (- 0)) with 1%Q; ring]).
  split; intros R.
  - rewrite I1; [rewrite (round_away_comp _ _ V), round_away_truncate by exact Hf; reflexivity|]. rewrite V.
    destruct R as [R1 R2]. apply (truncate_at_mono _ _ (frac_digits q)) in R1. apply (truncate_at_mono _ _ (frac_digits q)) in R2. rewrite T in R1, R2. split; assumption.
  - apply I2. rewrite V. intros [X1 X2]. destruct R as [R|R]; apply (truncate_at_mono _ _ (frac_digits q)) in R; rewrite T in R.
    + pose proof (Qle_trans _ _ _ X1 R) as Y. rewrite <- Zle_Qle in Y. lia.
    + pose proof (Qle_trans _ _ _ R X2) as Y. rewrite <- Zle_Qle in Y. lia.
Qed.
Print Assumptions C65_quotients_to_integers.
(** ... and for averages. *)
Theorem C65_rounded_averages : forall m l s c res incr q m' res' f r, Forall wf l -> l <> [] -> Z.of_nat (List.length l) < 10 ^ 18 ->
  total m zero l = Ret s -> from_u64 m (Z.of_nat (List.length l)) = Ret c -> 0 <= incr <= 166 -> div_to m s c res incr = Ret (Ok tt, q) ->
  0 <= f < frac_digits q -> wf q -> round_to m' q res' f = Ret r ->
  (value r == round_at (fold_right (fun x q => value x + q) 0 l / inject_Z (Z.of_nat (List.length l))) f)%Q.
Proof.
  intros m l s c res incr q m' res' f r Wl Ne Len HT HC Hi HD Hf Wq HR.
  pose proof (C59_averages_are_truncated_means m l s c res incr q Wl Ne Len HT HC Hi HD) as V.
  assert (F127 : 0 <= f <= 127). { pose proof (frac_le_fu q Wq) as [[_ L] _]. pose proof (wf_counts q Wq). clear - L H Hf. lia. }
  destruct (C38_round_to_is_half_away m' q res' f r Wq F127 (or_introl (proj2 Hf)) HR) as (_ & Vr & _).
  rewrite Vr, (round_at_comp _ _ f V). apply round_truncate, Hf.
Qed.
Print Assumptions C65_rounded_averages.

(** End to end. A decimal of at most ten digits is within two units, an integer of at most nine within one. *)
Lemma few_digits b n : regular b -> ~ (value b == 0)%Q -> int_digits b + frac_digits b <= n -> exists x, 0 < x < 10 ^ n /\ magnitude b = x * 10 ^ (9 * fu b - frac_digits b).
Proof.
  intros (W & _ & T & N) V L. pose proof (frac_le_fu b W) as [[F0 F1] _]. pose proof (magnitude_nonneg b W) as M0. rewrite value_zero_iff in V by exact W.
  assert (D0 : 0 <= int_digits b) by (unfold int_digits; apply Z.mod_pos_bound; lia).
  exists (magnitude b / 10 ^ (9 * fu b - frac_digits b)). unfold nohidden in N. unfold tight in T.
  replace (base ^ fu b) with (10 ^ (9 * fu b)) in T by (unfold base; change 1000000000 with (10 ^ 9); rewrite <- Z.pow_mul_r by lia; reflexivity).
  rewrite <- Z.pow_add_r in T by lia. replace (int_digits b + 9 * fu b) with ((int_digits b + frac_digits b) + (9 * fu b - frac_digits b)) in T by lia. rewrite Z.pow_add_r in T by lia.
  assert (B : 10 ^ (int_digits b + frac_digits b) <= 10 ^ n) by (apply Z.pow_le_mono_r; lia).
  assert (P : 0 < 10 ^ (9 * fu b - frac_digits b)) by (apply Z.pow_pos_nonneg; lia).
  set (p := 10 ^ (9 * fu b - frac_digits b)) in *. set (t := 10 ^ (int_digits b + frac_digits b)) in *. set (y := 10 ^ n) in *. set (M := magnitude b) in *. clearbody p t y M. clear - V M0 N T B P.
  apply Z.div_exact in N; [|lia]. set (x := M / p) in *. clearbody x. split; [|lia]. nia.
Qed.
Lemma few_two b : regular b -> ~ (value b == 0)%Q -> int_digits b + frac_digits b <= 10 -> significant_units 2 b.
Proof.
  intros R V L. destruct (few_digits b 10 R V L) as (x & Hx & E). destruct R as (W & _). pose proof (frac_le_fu b W) as [[F0 F1] _].
  apply (C34_ten_digits b x (9 * fu b - frac_digits b)); [exact Hx|lia|exact E].
Qed.
Lemma few_one b : regular b -> ~ (value b == 0)%Q -> int_digits b <= 9 -> frac_digits b = 0 -> significant_units 1 b.
Proof.
  intros R V L F. destruct (few_digits b 9 R V ltac:(lia)) as (x & Hx & E). exists x, 0. assert (U : fu b = 0) by (unfold fu; rewrite F; reflexivity). rewrite F, U in E. change (10 ^ (9 * 0 - 0)) with (base ^ 0) in E.
  split; [exact Hx|]. split; [lia|exact E].
Qed.
Lemma least_value b : regular b -> ~ (value b == 0)%Q -> (pow10 (- frac_digits b) <= Qabs (value b))%Q.
Proof.
  intros (W & _ & _ & N) V. destruct (nohidden_multiple b (frac_digits b) W N (Z.le_refl _)) as (z & E). rewrite E, Qabs_Qmult, (Qabs_pos (pow10 _)) by apply Qlt_le_weak, pow10_pos.
  assert (z <> 0). { intros ->. apply V. rewrite E. ring. }
  assert (1 <= Qabs (inject_Z z))%Q. { change (Qabs (inject_Z z)) with (inject_Z (Z.abs z)). change 1%Q with (inject_Z 1). rewrite <- Zle_Qle. lia. }
  pose proof (pow10_pos (- frac_digits b)) as P. set (p := pow10 (- frac_digits b)) in *. set (w := Qabs (inject_Z z)) in *. clearbody p w. nra.
Qed.
Lemma Qabs_quotient (x y : Q) : ~ (y == 0)%Q -> (Qabs (x / y) == Qabs x / Qabs y)%Q.
Proof.
  intros N. assert (Y : (0 < Qabs y)%Q). { destruct (Qle_lt_or_eq _ _ (Qabs_nonneg y)) as [H|H]; [exact H|]. exfalso. apply N. destruct (Qlt_le_dec y 0) as [L|L]; [rewrite Qabs_neg in H by (apply Qlt_le_weak, L); lra|rewrite Qabs_pos in H by exact L; lra]. }
  apply (Qmult_inj_r _ _ (Qabs y)); [lra|]. rewrite <- Qabs_Qmult. rewrite (Qabs_wd (x / y * y) x) by (field; exact N). field. lra.
Qed.
(** Two numerals, the second of at most ten digits, divided with four more fractional digits
    (as [/] does), rounded to at most eight places and printed: the numeral of the correctly rounded quotient.
    A debug build does this for whole numbers of at most nine digits. *)
Theorem C65_end_to_end_quotients : forall m s t f, numeral_ok s -> numeral_ok t -> n_exp s = None -> n_exp t = None ->
  zlength (n_int s) <= 36 -> zlength (n_frac s) <= 27 -> zlength (n_int t) + zlength (n_frac t) <= 10 ->
  m = Release \/ (n_frac t = [] /\ zlength (n_int t) <= 9) -> ~ (numeral_value t == 0)%Q -> 0 <= f <= 8 ->
  exists a b q r n, from_str m (numeral_bytes s) = Ret (Ok a) /\ from_str m (numeral_bytes t) = Ret (Ok b) /\ div_to m a b zero 4 = Ret (Ok tt, q) /\
    round_to m q zero f = Ret r /\ to_string m r (-1) = Ret (numeral_bytes n) /\ canonical n /\ zlength (n_frac n) = f /\
    (numeral_value n == round_at (numeral_value s / numeral_value t) f)%Q.
Proof.
  intros m s t f OKs OKt EXs EXt LI LF Lt M NZ Hf.
  pose proof (zlength_nonneg _ (n_int s)) as Z1. pose proof (zlength_nonneg _ (n_frac s)) as Z2. pose proof (zlength_nonneg _ (n_int t)) as Z3. pose proof (zlength_nonneg _ (n_frac t)) as Z4.
  destruct (within_plain s _ _ OKs EXs (Z.le_refl _) (Z.le_refl _) ltac:(lia)) as (WLs & NFs & NDs). destruct (within_plain t _ _ OKt EXt (Z.le_refl _) (Z.le_refl _) ltac:(lia)) as (WLt & NFt & NDt).
  destruct (from_str_accepts m s OKs WLs) as (a & Ea & [PWa PVa PNa PFa PIa PTa PHa PRa] & CLa). destruct (from_str_accepts m t OKt WLt) as (b & Eb & [PWb PVb PNb PFb PIb PTb PHb PRb] & CLb).
  assert (Rb : regular b) by (rg; assumption). assert (Nb : ~ (value b == 0)%Q) by (rewrite PVb; exact NZ).
  assert (Ia : int_digits a <= 36) by lia. assert (Fa : frac_digits a <= 27) by lia. assert (Ib : int_digits b + frac_digits b <= 10) by lia.
  assert (D0 : 0 <= int_digits b) by (unfold int_digits; apply Z.mod_pos_bound; lia). assert (Fb : 0 <= frac_digits b <= 10) by lia. assert (Fa0 : 0 <= frac_digits a) by lia.
  assert (IUa : iu a <= 4) by (unfold iu, units_for; apply Z.lt_succ_r, Z.div_lt_upper_bound; lia). assert (FUa : fu a <= 3) by (unfold fu, units_for; apply Z.lt_succ_r, Z.div_lt_upper_bound; lia).
  pose proof (few_two b Rb Nb Ib) as S2.
  assert (S1 : m = Debug -> significant_units 1 b). { intros ->. destruct M as [M|[M1 M2]]; [discriminate|]. apply few_one; [exact Rb|exact Nb| |]; [lia|]. rewrite PFb, NFt, M1. reflexivity. }
  assert (Rm : div_room a b 4) by (apply C34_room; try assumption; lia). pose proof (room_sane _ _ _ Rm) as Sn.
  assert (Q46 : (Qabs (value a / value b) < pow10 46)%Q).
  { rewrite Qabs_quotient by exact Nb. pose proof (least_value b Rb Nb) as LV. pose proof (pow10_pos (- frac_digits b)) as P. assert (B0 : (0 < Qabs (value b))%Q) by (eapply Qlt_le_trans; [exact P|exact LV]).
    apply Qlt_shift_div_r; [exact B0|]. eapply Qlt_le_trans; [apply (tight_bound a PWa PTa)|]. eapply Qle_trans; [apply (pow10_le _ 36 Ia)|].
    apply Qle_trans with (pow10 46 * pow10 (- frac_digits b))%Q; [rewrite <- pow10_add; apply pow10_le; lia|].
    rewrite !(Qmult_comm (pow10 46)). apply Qmult_le_compat_r; [exact LV|apply Qlt_le_weak, pow10_pos]. }
  destruct (C35_division_returns_partial m a b zero 4 PWa PWb Nb (or_introl (conj S2 S1)) ltac:(lia) ltac:(lia) Rm) as ([rs q] & HD).
  assert (OK : rs = Ok tt).
  { destruct rs as [[]|e]; [reflexivity|]. exfalso. refine (proj1 (C34_overflow_iff m a b zero 4 PWa PWb Nb ltac:(lia) Rm) _ e q HD). eapply Qlt_le_trans; [exact Q46|]. apply pow10_le. lia. }
  subst rs. destruct (C34_truncated_quotient_partial m a b zero 4 q PWa PWb Nb (or_introl S2) ltac:(lia) Sn HD) as (V & Wq & Cq & Nq & Zq & _).
  assert (Shape : iu q <= 6 /\ (f < frac_digits q \/ (value a == 0)%Q)).
  { destruct (Qeq_dec (value a) 0) as [Va|Va].
    - rewrite (DivQ.div_to_zero m a b zero 4 PWa PWb Va Nb) in HD. injection HD as <-. split; [vm_compute; discriminate|]. right. exact Va.
    - destruct (C34_quotient_units_partial m a b zero 4 q PWa PWb Va Nb (or_introl S2) ltac:(lia) Sn HD) as (U1 & U2 & U3).
      assert (IQ : iu q <= 6). { apply (power_units (Qabs (value a / value b)) (iu q) 6); [|lia|exact U2]. eapply Qlt_le_trans; [exact Q46|]. apply pow10_le. lia. }
      split; [exact IQ|]. left. rewrite U3. pose proof (wf_counts q Wq).
      assert (1 <= units_for (frac_digits a + frac_digits b + 4)) by (unfold units_for; apply Z.div_le_lower_bound; lia). clear - IQ H H0 Hf. lia. }
  destruct Shape as [IQ FQ].
  assert (Hrel : f < frac_digits q \/ nohidden q) by (right; exact Nq).
  assert (U1 : units_for f <= 1) by (unfold units_for; apply Z.lt_succ_r, Z.div_lt_upper_bound; lia).
  assert (RV : (round_at (value q) f == round_at (value a / value b) f)%Q).
  { destruct FQ as [FQ|FQ]; [rewrite (round_at_comp _ _ f V); apply round_truncate, FQ|].
    apply round_at_comp. rewrite V. transitivity (truncate_at 0 (frac_digits q)); [apply truncate_at_comp; rewrite FQ; unfold Qdiv; ring|]. rewrite FQ. unfold truncate_at. rewrite (truncate_comp _ 0) by ring. change (truncate 0) with 0. unfold Qdiv. ring. }
  assert (B : (Qabs (round_at (value q) f) < pow10 (9 * (9 - units_for f)))%Q).
  { eapply Qlt_le_trans; [|apply (pow10_le 47); lia].
    pose proof (round_at_close (value q) f) as C. assert (P : (pow10 (- f) <= 1)%Q) by (rewrite <- pow10_0; apply pow10_le; lia).
    assert (T : (Qabs (round_at (value q) f) <= Qabs (round_at (value q) f - value q) + Qabs (value q))%Q).
    { eapply Qle_trans; [|apply Qabs_triangle]. setoid_replace (round_at (value q) f - value q + value q)%Q with (round_at (value q) f) by ring. apply Qle_refl. }
    assert (QB : (Qabs (value q) < pow10 46)%Q).
    { eapply Qle_lt_trans; [|exact Q46]. rewrite V. clear. set (x := (value a / value b)%Q). clearbody x. destruct (Qlt_le_dec x 0) as [N|N].
      - assert (P : (0 <= - x)%Q) by lra. destruct (truncate_at_pos (- x) (frac_digits q) P) as (A1 & A2 & _). rewrite (truncate_at_comp x (- - x)) by ring. rewrite truncate_at_opp, Qabs_opp, (Qabs_pos _ A1), (Qabs_neg x) by lra. exact A2.
      - destruct (truncate_at_pos x (frac_digits q) N) as (A1 & A2 & _). rewrite (Qabs_pos _ A1), (Qabs_pos x N). exact A2. }
    assert (X : (pow10 46 + 1 <= pow10 47)%Q) by (vm_compute; discriminate).
    set (u := pow10 46) in *. set (v := pow10 47) in *. set (w := pow10 (- f)) in *. clearbody u v w. lra. }
  assert (F127 : 0 <= f <= 127) by (clear - Hf; lia). assert (S9 : iu q + units_for f <= 9) by (clear - IQ U1; lia).
  destruct (proj2 (C38_round_to_returns_iff_room m q zero f Wq F127 Hrel) (conj S9 B)) as (r & HR).
  destruct (C62_rounded_numerals m q zero f r Wq F127 Hrel HR) as (n & EN & C & _ & F & Vn).
  exists a, b, q, r, n. split; [exact Ea|]. split; [exact Eb|]. split; [exact HD|]. split; [exact HR|]. split; [exact EN|]. split; [exact C|]. split; [exact F|].
  rewrite Vn, RV. apply round_at_comp. rewrite PVa, PVb. reflexivity.
Qed.
Print Assumptions C65_end_to_end_quotients.
(** 2/3 to the cent; 200 split by 3 as an integer; and a divisor of ten digits. *)
Example C65_example : let a := dec "-2" in let b := dec "3" in wf a /\ wf b /\ ~ (value b == 0)%Q /\ significant_units 2 b /\ sane_request a b 4 /\
  (exists q r, div_to Debug a b zero 4 = Ret (Ok tt, q) /\ frac_digits q = 9 /\ round_to Debug q zero 2 = Ret r /\ to_string Debug r (-1) = Ret (bytes "-0.67") /\ as_i64 Debug q = Ret (Ok (-1))) /\
  (exists x y q r, from_str Release (bytes "123456789012345678901234567890.123456789") = Ret (Ok x) /\ from_str Release (bytes "-31415.92653") = Ret (Ok y) /\ div_to Release x y zero 4 = Ret (Ok tt, q) /\
     round_to Release q zero 8 = Ret r /\ to_string Release r (-1) = Ret (bytes "-3929751646651361038220335.05023363")).
Proof.
  cbv zeta. split; [hyps|]. split; [hyps|]. split; [vm_compute; discriminate|]. split; [sigu 3 0|]. split; [hyps|]. split.
  - do 2 eexists. split; [vm_compute; reflexivity|]. split; [vm_compute; reflexivity|]. split; [vm_compute; reflexivity|]. split; vm_compute; reflexivity.
  - do 4 eexists. split; [vm_compute; reflexivity|]. split; [vm_compute; reflexivity|]. split; [vm_compute; reflexivity|]. split; [vm_compute; reflexivity|]. vm_compute. reflexivity.
Qed.

(** C66: a product that fits, rounded. *)
Theorem C66_rounded_products : forall m a b res p m' res' f r, regular a -> regular b -> product_fits a b -> mul_to m a b res = Ret (Ok tt, p) ->
  0 <= f <= 127 -> round_to m' p res' f = Ret r -> (value r == round_at (value a * value b) f)%Q /\ frac_digits r = f /\ regular r.
Proof.
  intros m a b res p m' res' f r Ra Rb PF HM Hf HR. destruct (C28_multiplication_is_exact m a b res _ p Ra Rb PF HM) as (_ & V & (Wp & Cp & Tp & Np) & _).
  destruct (C38_round_to_is_half_away m' p res' f r Wp Hf (or_intror Np) HR) as (Wr & Vr & Fr & _ & Hr & Cr & Tr).
  split; [rewrite Vr; apply round_at_comp, V|]. split; [exact Fr|]. rg; auto.
Qed.
Print Assumptions C66_rounded_products.
Theorem C66_end_to_end_products : forall m s t f, numeral_ok s -> numeral_ok t -> n_exp s = None -> n_exp t = None ->
  zlength (n_int s) + zlength (n_frac s) <= 65 -> zlength (n_int t) + zlength (n_frac t) <= 65 ->
  zlength (n_int s) + zlength (n_int t) <= 44 -> zlength (n_frac s) + zlength (n_frac t) <= 36 ->
  m = Release \/ n_int s <> [] -> 0 <= f <= 36 ->
  exists a b p r n, from_str m (numeral_bytes s) = Ret (Ok a) /\ from_str m (numeral_bytes t) = Ret (Ok b) /\
    mul_to m a b zero = Ret (Ok tt, p) /\ round_to m p zero f = Ret r /\ to_string m r (-1) = Ret (numeral_bytes n) /\ canonical n /\
    zlength (n_frac n) = f /\ (numeral_value n == round_at (numeral_value s * numeral_value t) f)%Q.
Proof.
  intros m s t f OKs OKt EXs EXt Ls Lt LI LF M Hf.
  destruct (within_plain s _ _ OKs EXs (Z.le_refl _) (Z.le_refl _) Ls) as (WLs & NFs & NDs). destruct (within_plain t _ _ OKt EXt (Z.le_refl _) (Z.le_refl _) Lt) as (WLt & NFt & NDt).
  destruct (from_str_accepts m s OKs WLs) as (a & Ea & [PWa PVa PNa PFa PIa PTa PHa PRa] & CLa). destruct (from_str_accepts m t OKt WLt) as (b & Eb & [PWb PVb PNb PFb PIb PTb PHb PRb] & CLb).
  assert (Ra : regular a) by (rg; assumption). assert (Rb : regular b) by (rg; assumption).
  destruct (C50_end_to_end_products m s t OKs OKt EXs EXt Ls Lt ltac:(lia) LF M) as (a' & b' & p & _ & Ea' & Eb' & HM & _). rewrite Ea in Ea'. injection Ea' as <-. rewrite Eb in Eb'. injection Eb' as <-.
  assert (IS : int_digits a + int_digits b <= 44) by lia. assert (FS : frac_digits a + frac_digits b <= 36) by lia. 
  assert (A0 : 0 <= int_digits a) by (unfold int_digits; apply Z.mod_pos_bound; lia). assert (B0 : 0 <= int_digits b) by (unfold int_digits; apply Z.mod_pos_bound; lia).
  assert (UI : units_for (int_digits a + int_digits b) <= 5) by (unfold units_for; apply Z.lt_succ_r, Z.div_lt_upper_bound; lia).
  assert (UF : units_for (frac_digits a + frac_digits b) <= 4) by (unfold units_for; apply Z.lt_succ_r, Z.div_lt_upper_bound; lia).
  assert (PF : product_fits a b) by (split; [exact UF|clear - UI UF; lia]).
  destruct (C28_multiplication_is_exact m a b zero _ p Ra Rb PF HM) as (_ & Vp & Rp & _). pose proof Rp as (Wp & Cp & Tp & Np).
  assert (U : units_for f <= 4) by (unfold units_for; apply Z.lt_succ_r, Z.div_lt_upper_bound; lia).
  assert (IP : iu p <= 5).
  { destruct (Qeq_dec (value a) 0) as [Za|Za]; [|destruct (Qeq_dec (value b) 0) as [Zb|Zb]].
    - rewrite (proj2 (C32_zero_absorbs m b a zero PWb PWa CLb CLa Za)) in HM. injection HM as <-. vm_compute. discriminate.
    - rewrite (proj1 (C32_zero_absorbs m a b zero PWa PWb CLa CLb Zb)) in HM. injection HM as <-. vm_compute. discriminate.
    - destruct (C29_sign_and_shape m a b zero p PWa PWb CLa CLb PTa PTb HM) as (_ & _ & _ & _ & SH). destruct (SH Za Zb) as [SI _].
      unfold iu; rewrite SI; unfold units_for; rewrite Z.mul_comm, Z.div_add_l by lia. change (8 / 9) with 0. unfold product_int_units. clear - UI. lia. }
  assert (PB : (Qabs (value p) < pow10 44)%Q).
  { rewrite Vp, Qabs_Qmult. pose proof (tight_bound a PWa PTa) as Ta. pose proof (tight_bound b PWb PTb) as Tb.
    eapply Qlt_le_trans; [|apply (pow10_le _ 44 IS)]. rewrite pow10_add. pose proof (Qabs_nonneg (value a)) as Xa. pose proof (Qabs_nonneg (value b)) as Xb.
    set (x := Qabs (value a)) in *. set (y := Qabs (value b)) in *. set (u := pow10 (int_digits a)) in *. set (v := pow10 (int_digits b)) in *. clearbody x y u v. clear - Ta Tb Xa Xb. nra. }
  assert (R : (Qabs (round_at (value p) f) < pow10 (9 * (9 - units_for f)))%Q).
  { eapply Qlt_le_trans; [|apply (pow10_le 45); lia].
    pose proof (round_at_close (value p) f) as C. assert (P : (pow10 (- f) <= 1)%Q) by (rewrite <- pow10_0; apply pow10_le; lia).
    assert (T : (Qabs (round_at (value p) f) <= Qabs (round_at (value p) f - value p) + Qabs (value p))%Q).
    { eapply Qle_trans; [|apply Qabs_triangle]. setoid_replace (round_at (value p) f - value p + value p)%Q with (round_at (value p) f) by ring. apply Qle_refl. }
    assert (X : (pow10 44 + 1 <= pow10 45)%Q) by (vm_compute; discriminate).
    set (u := pow10 44) in *. set (v := pow10 45) in *. set (w := pow10 (- f)) in *. clearbody u v w. lra. }
  assert (F127 : 0 <= f <= 127) by (clear - Hf; lia). assert (S9 : iu p + units_for f <= 9) by (clear - IP U; lia).
  destruct (proj2 (C38_round_to_returns_iff_room m p zero f Wp F127 (or_intror Np)) (conj S9 R)) as (r & HR).
  destruct (C62_rounded_numerals m p zero f r Wp F127 (or_intror Np) HR) as (n & EN & C & _ & F & Vn).
  exists a, b, p, r, n. split; [exact Ea|]. split; [exact Eb|]. split; [exact HM|]. split; [exact HR|]. split; [exact EN|]. split; [exact C|]. split; [exact F|].
  rewrite Vn. apply round_at_comp. rewrite Vp, PVa, PVb. reflexivity.
Qed.
Print Assumptions C66_end_to_end_products.
(** 7.5% of 19.99, to the cent. *)
Example C66_example : exists a b p r, from_str Debug (bytes "19.99") = Ret (Ok a) /\ from_str Debug (bytes "-0.075") = Ret (Ok b) /\ regular a /\ regular b /\ product_fits a b /\
  mul_to Debug a b zero = Ret (Ok tt, p) /\ round_to Debug p zero 2 = Ret r /\ to_string Debug p (-1) = Ret (bytes "-1.49925") /\ to_string Debug r (-1) = Ret (bytes "-1.50").
Proof.
  exists (dec "19.99"), (dec "-0.075"). do 2 eexists. split; [vm_compute; reflexivity|]. split; [vm_compute; reflexivity|]. split; [hyps|]. split; [hyps|]. split; [hyps|].
  split; [vm_compute; reflexivity|]. split; [vm_compute; reflexivity|]. split; vm_compute; reflexivity.
Qed.

(** C67: strings as keys. [Hash] does not respect [==] (C16); printed strings do, for a fixed number of fractional digits. *)
Theorem C67_printed_keys : forall m a b, wf a -> wf b -> nohidden a -> nohidden b ->
  (to_string m a (-1) = to_string m b (-1) <-> eq m a b = Ret true /\ frac_digits a = frac_digits b).
Proof.
  intros m a b Wa Wb Na Nb. destruct (C08_to_string_is_exact m a Wa Na) as (n & En & Cn & Sn & Fn & Vn). destruct (C08_to_string_is_exact m b Wb Nb) as (k & Ek & Ck & Sk & Fk & Vk).
  destruct (C13_eq_is_numeric m a b Wa Wb) as (r & Er & Hr). rewrite En, Ek, Er. split.
  - intros E. injection E as E. pose proof (canonical_bytes n k Cn Ck E) as <-. split; [|congruence]. f_equal. apply Hr. split; [rewrite <- Vn, <- Vk; reflexivity|congruence].
  - intros [E F]. injection E as ->. destruct (proj1 Hr eq_refl) as [V S]. rewrite (C08_canonical_numerals_are_unique n k Cn Ck); [reflexivity|congruence|congruence|rewrite Vn, Vk; exact V].
Qed.
Print Assumptions C67_printed_keys.
(** What is printed and parsed again is the same decimal for both, and so hashes equally. *)
Theorem C67_reparsed_keys : forall m a b, wf a -> wf b -> nohidden a -> nohidden b -> tight a -> Z.max 1 (int_digits a) + frac_digits a <= 65 ->
  eq m a b = Ret true -> frac_digits a = frac_digits b ->
  exists s d h, to_string m a (-1) = Ret s /\ to_string m b (-1) = Ret s /\ from_str m s = Ret (Ok d) /\ hash m d = Ret h /\ eq m d a = Ret true /\ eq m d b = Ret true.
Proof.
  intros m a b Wa Wb Na Nb Ta L E F. destruct (C10_declared_digits_suffice m a Wa Ta L) as (s & Es & Ms).
  assert (Eb : to_string m b (-1) = Ret s) by (rewrite <- Es; symmetry; apply C67_printed_keys; auto).
  destruct (print_parse m a s Wa Na Es Ms) as (d & Ed & Wd & _). destruct (C10_printing_then_parsing m a s Wa Na Es Ms) as (d1 & Ed1 & _ & _ & _ & _ & Q1). destruct (C10_printing_then_parsing m b s Wb Nb Eb Ms) as (d2 & Ed2 & _ & _ & _ & _ & Q2).
  rewrite Ed in Ed1, Ed2. injection Ed1 as <-. injection Ed2 as <-. pose proof (C17_hash_returns m d Wd) as H.
  exists s, d. eexists. split; [exact Es|]. split; [exact Eb|]. split; [exact Ed|]. split; [exact H|]. split; assumption.
Qed.
Print Assumptions C67_reparsed_keys.
Example C67_example : let a := dec "0000000000012.50" in let b := dec "12.50" in wf a /\ wf b /\ nohidden a /\ nohidden b /\ tight a /\ Z.max 1 (int_digits a) + frac_digits a = 15 /\
  eq Debug a b = Ret true /\ frac_digits a = frac_digits b /\ hash Debug a <> hash Debug b /\ to_string Debug a (-1) = Ret (bytes "12.50").
Proof. hyps. Qed.

(** C68: the order of strings. Comparing what two numerals are parsed to compares the numbers
    they denote (a negative zero counts as below zero). *)
Theorem C68_order_of_strings : forall m s t, numeral_ok s -> numeral_ok t -> within_limits s -> within_limits t ->
  exists a b, from_str m (numeral_bytes s) = Ret (Ok a) /\ from_str m (numeral_bytes t) = Ret (Ok b) /\
    cmp m a b = Ret (match Qcompare (numeral_value s) (numeral_value t) with
                     | Eq => match is_minus (n_sign s), is_minus (n_sign t) with true, false => Lt | false, true => Gt | _, _ => Eq end
                     | c => c end).
Proof.
  intros m s t OKs OKt WLs WLt. destruct (from_str_accepts m s OKs WLs) as (a & Ea & [PWa PVa PNa _ _ _ _ _] & _). destruct (from_str_accepts m t OKt WLt) as (b & Eb & [PWb PVb PNb _ _ _ _ _] & _).
  exists a, b. split; [exact Ea|]. split; [exact Eb|]. rewrite C13_comparison_is_numeric, PNa, PNb, (Qcompare_comp _ _ PVa _ _ PVb) by assumption. reflexivity.
Qed.
Print Assumptions C68_order_of_strings.
(** A list sorted by [cmp] (neighbours in order) is sorted by the numbers, any two of its elements. *)
Theorem C68_sorted_lists : forall m l, Forall wf l -> Sorted (fun a b => cmp m a b <> Ret Gt) l -> StronglySorted (fun a b => (value a <= value b)%Q) l.
Proof.
  intros m l W S. assert (S' : Sorted (fun a b => (value a <= value b)%Q) l).
  { induction S as [|a l S IH H]; [constructor|]. inversion W as [|? ? Wa Wl]; subst. constructor; [apply IH, Wl|]. destruct H as [|b l H]; constructor. inversion Wl as [|? ? Wb _]; subst.
    rewrite C13_comparison_is_numeric in H by assumption. destruct (Qcompare_spec (value a) (value b)) as [E|E|E]; [rewrite E; apply Qle_refl|apply Qlt_le_weak, E|exfalso; apply H; reflexivity]. }
  apply Sorted_StronglySorted; [|exact S']. intros x y z. apply Qle_trans.
Qed.
Print Assumptions C68_sorted_lists.
Example C68_example : let l := [dec "-10"; dec "-9.5"; dec "-0"; dec "0.00"; dec "00000000000.000000000001"; dec "9"; dec "10"; dec "1e20"] in Forall wf l /\ Sorted (fun a b => cmp Debug a b <> Ret Gt) l.
Proof. cbv zeta. split; [repeat constructor; hyps|]. repeat (constructor; [|first [constructor; vm_compute; discriminate|constructor]]). constructor. Qed.
