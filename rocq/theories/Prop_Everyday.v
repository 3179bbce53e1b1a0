(** * Properties: quotients and remainders by everyday divisors, from strings to strings (C89). *)
From Coq Require Import ZArith List Bool String Lia QArith Qabs Qround Lqa.
From Verif Require Import Spec_Rem RemFull Rust Model_Base Model_Cmp Model_Round Model_Decimal Model_Arith Model_Serde Spec Spec_Div Lib Sign AddSubQ Basics Cmp QLib RoundQ MulQ MulLaws DivBasics DivQ DivG2 DivFit ParseMain Scan ParseThms Conv History Laws Laws4
  Prop_Compare Prop_AddSub Prop_Conv Prop_Mul Prop_Print Prop_Parse Prop_Round Prop_Div Prop_Rem Prop_Laws Prop_Laws2 Prop_Laws4 Prop_Robust Tests Witness.
Import ListNotations.
Open Scope Z_scope.

(** A numeral without exponent, of at most [i] integral and [f] fractional digits. *)
Definition short (i f : Z) (n : numeral) : Prop := numeral_ok n /\ n_exp n = None /\ zlength (n_int n) <= i /\ zlength (n_frac n) <= f.

Lemma short_parse m n i f : short i f n -> i + f <= 65 -> exists d, from_str m (numeral_bytes n) = Ret (Ok d) /\ regular d /\ (value d == numeral_value n)%Q /\
  neg d = is_minus (n_sign n) /\ int_digits d = zlength (n_int n) /\ frac_digits d = zlength (n_frac n).
Proof.
  intros (OK & EX & LI & LF) L. destruct (within_plain n i f OK EX LI LF L) as (WL & NF & ND).
  destruct (from_str_accepts m n OK WL) as (d & E & [PW PV PN PF PI PT PH PR] & CL). exists d. split; [exact E|]. split; [rg; assumption|]. split; [exact PV|]. split; [exact PN|]. split; lia.
Qed.
Lemma short_two b : wf b -> ~ (value b == 0)%Q -> iu b <= 1 -> fu b <= 1 -> significant_units 2 b.
Proof.
  intros W V I F. pose proof (magnitude_bound b W) as M. pose proof (wf_counts b W) as C. rewrite value_zero_iff in V by exact W.
  exists (magnitude b), 0. split; [split; [lia|]|split; [lia|lia]]. eapply Z.lt_le_trans; [apply M|]. apply Z.pow_le_mono_r; [reflexivity|lia].
Qed.
Lemma units_one x k : 0 <= x <= 9 * k -> units_for x <= k.
Proof. intros H. unfold units_for. apply Z.lt_succ_r, Z.div_lt_upper_bound; lia. Qed.
Lemma units_up x : x <= 9 * units_for x.
Proof. unfold units_for. pose proof (Z.div_mod (x + 8) 9 ltac:(lia)) as D. pose proof (Z.mod_pos_bound (x + 8) 9 ltac:(lia)) as M. change DIGITS_PER_UNIT with 9 in *. lia. Qed.

(** C89: a decimal read from at most 36 integral and 27 fractional digits,
    divided by a non-zero decimal read from at most 9 and 9 digits, is printed as the quotient truncated
    to the digits asked for (36 at most). A release build always returns, a debug build
    if the divisor is an integer. *)
Theorem C89_end_to_end_quotients : forall m s t incr res, short 36 27 s -> short 9 9 t -> ~ (numeral_value t == 0)%Q -> 0 <= incr <= 83 ->
  exists a b, from_str m (numeral_bytes s) = Ret (Ok a) /\ from_str m (numeral_bytes t) = Ret (Ok b) /\
    (m = Release \/ n_frac t = [] -> exists o, div_to m a b res incr = Ret o) /\
    (forall rs q, div_to m a b res incr = Ret (rs, q) -> rs = Ok tt /\
       exists n, to_string m q (-1) = Ret (numeral_bytes n) /\ canonical n /\
         (numeral_value n == truncate_at (numeral_value s / numeral_value t) (zlength (n_frac n)))%Q /\
         (~ (numeral_value s == 0)%Q -> Z.min 36 (zlength (n_frac s) + zlength (n_frac t) + incr) <= zlength (n_frac n))).
Proof.
  intros m s t incr res Hs Ht NZ Hi.
  destruct (short_parse m s _ _ Hs ltac:(lia)) as (a & Ea & Ra & PVa & PNa & PIa & PFa). destruct (short_parse m t _ _ Ht ltac:(lia)) as (b & Eb & Rb & PVb & PNb & PIb & PFb).
  destruct Hs as (OKs & EXs & LIs & LFs). destruct Ht as (OKt & EXt & LIt & LFt).
  pose proof Ra as (PWa & CLa & PTa & PHa). pose proof Rb as (PWb & CLb & PTb & PHb).
  assert (Nb : ~ (value b == 0)%Q) by (rewrite PVb; exact NZ).
  pose proof (zlength_nonneg _ (n_int s)) as Z1. pose proof (zlength_nonneg _ (n_frac s)) as Z2. pose proof (zlength_nonneg _ (n_int t)) as Z3. pose proof (zlength_nonneg _ (n_frac t)) as Z4.
  assert (IUa : iu a <= 4) by (apply units_one; lia). assert (FUa : fu a <= 3) by (apply units_one; lia).
  assert (IUb : iu b <= 1) by (apply units_one; lia). assert (FUb : fu b <= 1) by (apply units_one; lia).
  pose proof (short_two b PWb Nb IUb FUb) as S2.
  assert (Rm : div_room a b incr) by (unfold div_room; pose proof (wf_counts a PWa); pose proof (wf_counts b PWb); lia). pose proof (room_sane _ _ _ Rm) as Sn.
  exists a, b. split; [exact Ea|]. split; [exact Eb|]. split.
  { intros M. apply (C35_division_returns_partial m a b res incr PWa PWb Nb); [|lia|lia|exact Rm]. left. split; [exact S2|]. intros ->. destruct M as [M|M]; [discriminate|].
    apply few_one; [exact Rb|exact Nb|lia|]. rewrite PFb, M. reflexivity. }
  intros rs q HD.
  assert (Q45 : (Qabs (value a / value b) < pow10 45)%Q).
  { rewrite Qabs_quotient by exact Nb. pose proof (least_value b Rb Nb) as LV. pose proof (pow10_pos (- frac_digits b)) as P. assert (B0 : (0 < Qabs (value b))%Q) by (eapply Qlt_le_trans; [exact P|exact LV]).
    apply Qlt_shift_div_r; [exact B0|]. eapply Qlt_le_trans; [apply (tight_bound a PWa PTa)|]. eapply Qle_trans; [apply (pow10_le _ 36); lia|].
    apply Qle_trans with (pow10 45 * pow10 (- frac_digits b))%Q; [rewrite <- pow10_add; apply pow10_le; lia|].
    rewrite !(Qmult_comm (pow10 45)). apply Qmult_le_compat_r; [exact LV|apply Qlt_le_weak, pow10_pos]. }
  assert (OK : rs = Ok tt).
  { destruct rs as [[]|e]; [reflexivity|]. exfalso. refine (proj1 (C34_overflow_iff m a b res incr PWa PWb Nb ltac:(lia) Rm) _ e q HD). eapply Qlt_le_trans; [exact Q45|]. apply pow10_le. lia. }
  subst rs. split; [reflexivity|].
  destruct (C34_truncated_quotient_partial m a b res incr q PWa PWb Nb (or_introl S2) ltac:(lia) Sn HD) as (V & Wq & Cq & Nq & Zq & _).
  destruct (C08_to_string_is_exact m q Wq Nq) as (n & EN & CN & SN & FN & VN). exists n. split; [exact EN|]. split; [exact CN|]. split.
  - rewrite VN, FN, V. apply truncate_at_comp. rewrite PVa, PVb. reflexivity.
  - intros NS. assert (Va : ~ (value a == 0)%Q) by (rewrite PVa; exact NS). rewrite FN.
    destruct (C34_quotient_units_partial m a b res incr q PWa PWb Va Nb (or_introl S2) ltac:(lia) Sn HD) as (U1 & U2 & U3).
    assert (IQ : iu q <= 5) by (apply (power_units (Qabs (value a / value b)) (iu q) 5); [exact Q45|lia|exact U2]).
    rewrite U3, <- PFa, <- PFb. pose proof (units_up (frac_digits a + frac_digits b + incr)) as UU. clear - IQ UU. lia.
Qed.
Print Assumptions C89_end_to_end_quotients.

(** The remainder is printed exactly: it differs from the dividend by a
    multiple of the divisor, is smaller than the divisor and has the sign of the dividend. *)
Theorem C89_end_to_end_remainders : forall m s t res, short 36 27 s -> short 9 9 t -> ~ (numeral_value t == 0)%Q ->
  exists a b, from_str m (numeral_bytes s) = Ret (Ok a) /\ from_str m (numeral_bytes t) = Ret (Ok b) /\
    (m = Release \/ n_frac t = [] -> exists o, rem_to m a b res = Ret o) /\
    (forall rs r, rem_to m a b res = Ret (rs, r) -> rs = Ok tt /\
       exists n, to_string m r (-1) = Ret (numeral_bytes n) /\ canonical n /\
         (exists q : Z, (numeral_value s == numeral_value t * inject_Z q + numeral_value n)%Q) /\
         (Qabs (numeral_value n) < Qabs (numeral_value t))%Q /\ (~ (numeral_value n == 0)%Q -> is_minus (n_sign n) = is_minus (n_sign s))).
Proof.
  intros m s t res Hs Ht NZ.
  destruct (short_parse m s _ _ Hs ltac:(lia)) as (a & Ea & Ra & PVa & PNa & PIa & PFa). destruct (short_parse m t _ _ Ht ltac:(lia)) as (b & Eb & Rb & PVb & PNb & PIb & PFb).
  destruct Hs as (OKs & EXs & LIs & LFs). destruct Ht as (OKt & EXt & LIt & LFt).
  pose proof Ra as (PWa & CLa & PTa & PHa). pose proof Rb as (PWb & CLb & PTb & PHb).
  assert (Nb : ~ (value b == 0)%Q) by (rewrite PVb; exact NZ).
  pose proof (zlength_nonneg _ (n_int s)) as Z1. pose proof (zlength_nonneg _ (n_frac s)) as Z2. pose proof (zlength_nonneg _ (n_int t)) as Z3. pose proof (zlength_nonneg _ (n_frac t)) as Z4.
  assert (IUa : iu a <= 4) by (apply units_one; lia).
  assert (IUb : iu b <= 1) by (apply units_one; lia). assert (FUb : fu b <= 1) by (apply units_one; lia).
  pose proof (short_two b PWb Nb IUb FUb) as S2.
  exists a, b. split; [exact Ea|]. split; [exact Eb|]. split.
  { intros M. destruct m.
    - destruct M as [M|M]; [discriminate|]. destruct (C53_one_unit_divisors_partial Debug a b res PWa PWb) as (d & E); [apply few_one; [exact Rb|exact Nb|lia|]; rewrite PFb, M; reflexivity|lia|eexists; exact E].
    - destruct (C53_release_returns_partial a b res PWa PWb Nb) as (d & E); [apply roomy; [exact PWa|lia]|right; right; right; lia|eexists; exact E]. }
  intros rs r H. pose proof (C37_two_units a b PWb S2) as G.
  destruct (C37_truncated_remainder_partial m a b res rs r PWa PWb Nb G H) as (-> & (q & EQ & B) & SG & _ & Wr & _ & _ & NH).
  split; [reflexivity|]. destruct (C08_to_string_is_exact m r Wr (NH PHa PHb)) as (n & EN & CN & SN & FN & VN). exists n. split; [exact EN|]. split; [exact CN|]. split; [|split].
  - exists q. rewrite VN, <- PVa, <- PVb. exact EQ.
  - rewrite VN, <- PVb. exact B.
  - intros X. rewrite SN, <- PNa. apply SG. rewrite <- VN. exact X.
Qed.
Print Assumptions C89_end_to_end_remainders.

Example C89_example : exists s t, short 36 27 s /\ short 9 9 t /\ ~ (numeral_value t == 0)%Q /\ numeral_bytes s = bytes "-123456789012345678901234567.25" /\ numeral_bytes t = bytes "999999999.999999999" /\
  exists a b q r, from_str Release (numeral_bytes s) = Ret (Ok a) /\ from_str Release (numeral_bytes t) = Ret (Ok b) /\ div_to Release a b zero 4 = Ret (Ok tt, q) /\ rem_to Release a b zero = Ret (Ok tt, r) /\
    to_string Release q (-1) = Ret (bytes "-123456789012345679.024691356262345679") /\ to_string Release r (-1) = Ret (bytes "-24691356.262345679").
Proof.
  exists (mknum (Some true) [1;2;3;4;5;6;7;8;9;0;1;2;3;4;5;6;7;8;9;0;1;2;3;4;5;6;7] true [2;5] None), (mknum None (repeat 9 9) true (repeat 9 9) None).
  assert (D : forall l, forallb (fun x => (0 <=? x) && (x <=? 9)) l = true -> Forall is_digit l).
  { intros l H. apply Forall_forall. intros x X. rewrite forallb_forall in H. specialize (H x X). unfold is_digit. lia. }
  split; [repeat split; try (apply D; reflexivity); try discriminate|].
  split; [repeat split; try (apply D; reflexivity); try discriminate|]. split; [vm_compute; discriminate|]. split; [vm_compute; reflexivity|]. split; [vm_compute; reflexivity|].
  do 4 eexists. split; [vm_compute; reflexivity|]. split; [vm_compute; reflexivity|]. split; [vm_compute; reflexivity|]. split; [vm_compute; reflexivity|]. split; [vm_compute; reflexivity|]. vm_compute; reflexivity.
Qed.
