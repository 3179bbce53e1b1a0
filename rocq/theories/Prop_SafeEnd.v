(** * Properties: debug quotients, from end to end (C99). *)
From Coq Require Import ZArith Zquot List Bool String Lia QArith Qabs Qround Lqa.
From Verif Require Import Rust Model_Base Model_Cmp Model_Decimal Model_Arith Model_Serde Spec Spec_Div Spec_Guess Lib QLib Sign Basics AddSub AddSubQ Cmp DivBasics Div3 Div5 DivQ DivFit Laws Laws4 MulQ RoundQ RemG Rem4 Rem7
  Conv History Prop_Compare Prop_AddSub Prop_Conv Prop_Mul Prop_Print Prop_Div Prop_Rem Prop_Laws Prop_Integers Prop_Near Prop_Everyday Scan Prop_Safe Prop_SafeLaws Tests Witness.
Import ListNotations.
Open Scope Z_scope.

Lemma rounded_quotient q x y : (value q == truncate_at (inject_Z x / inject_Z y) (frac_digits q))%Q -> (x <> 0 -> frac_digits q = 9) -> round_away (value q) = round_away (inject_Z x / inject_Z y).
Proof.
  intros V F. rewrite (round_away_comp _ _ V). destruct (Z.eq_dec x 0) as [->|Hx0]; [|rewrite (F Hx0); apply round_away_truncate; lia].
  assert (X : (inject_Z 0 / inject_Z y == 0)%Q) by (unfold Qdiv; ring). rewrite (round_away_comp _ _ (truncate_at_comp _ _ (frac_digits q) X)), (round_away_comp _ _ X).
  apply round_away_comp. unfold truncate_at. rewrite (truncate_comp (0 * pow10 (frac_digits q)) (inject_Z 0)) by (change (inject_Z 0) with 0%Q; ring). rewrite truncate_Z. change (inject_Z 0) with 0%Q. ring.
Qed.

Lemma i64_back m q x y : is_i64 x -> is_i64 y -> y <> 0 -> wf q -> clean q -> (x <> 0 -> frac_digits q = 9) -> (value q == truncate_at (inject_Z x / inject_Z y) (frac_digits q))%Q ->
  as_i64 m q = Ret (checked_i64 (round_away (inject_Z x / inject_Z y))).
Proof.
  intros Hx Hy Y0 W C F V. pose proof (frac_le_fu q W) as [[F0 _] _].
  pose proof (rounded_quotient q x y V F) as RA.
  destruct (C19_as_i64 m q W C) as [I1 I2]. rewrite <- RA. clear RA.
  assert (T : forall z, (truncate_at (inject_Z z) (frac_digits q) == inject_Z z)%Q) by (intros z; apply (truncate_at_exact _ z 0); [lia|change (pow10 (- 0)) with 1%Q; ring]).
  unfold is_i64 in *. destruct (quotient_in_range x y Hx Hy Y0) as [[L1 L2]|L].
  + apply (truncate_at_mono _ _ (frac_digits q)) in L1. apply (truncate_at_mono _ _ (frac_digits q)) in L2. rewrite T, <- V in L1, L2. rewrite I1 by (split; assumption).
    apply round_away_mono in L1. apply round_away_mono in L2. rewrite round_away_Z in L1, L2. unfold checked_i64. 
    destruct (Z.leb_spec (-9223372036854775808) (round_away (value q))), (Z.leb_spec (round_away (value q)) 9223372036854775807); try reflexivity; lia.
  + assert (Vz : (value q == inject_Z 9223372036854775808)%Q) by (rewrite V, (truncate_at_comp _ _ _ L); apply T).
    rewrite I2 by (rewrite Vz, <- !Zle_Qle; lia). rewrite (round_away_comp _ _ Vz), round_away_Z. reflexivity.
Qed.

Lemma u64_back m q x y : is_u64 x -> is_u64 y -> y <> 0 -> wf q -> clean q -> ~ negzero q -> (x <> 0 -> frac_digits q = 9) -> (value q == truncate_at (inject_Z x / inject_Z y) (frac_digits q))%Q ->
  as_u64 m q = Ret (Ok (round_away (inject_Z x / inject_Z y))).
Proof.
  intros Hx Hy Y0 W C NZ F V. pose proof (frac_le_fu q W) as [[F0 _] _]. rewrite <- (rounded_quotient q x y V F).
  assert (T : forall z, (truncate_at (inject_Z z) (frac_digits q) == inject_Z z)%Q) by (intros z; apply (truncate_at_exact _ z 0); [lia|change (pow10 (- 0)) with 1%Q; ring]).
  unfold is_u64 in *. assert (Py : (0 < inject_Z y)%Q) by (change 0%Q with (inject_Z 0); rewrite <- Zlt_Qlt; lia).
  assert (L1 : (inject_Z 0 <= inject_Z x / inject_Z y)%Q) by (apply Qle_shift_div_l; [exact Py|]; rewrite <- inject_Z_mult, <- Zle_Qle; lia).
  assert (L2 : (inject_Z x / inject_Z y <= inject_Z 18446744073709551615)%Q) by (apply Qle_shift_div_r; [exact Py|]; rewrite <- inject_Z_mult, <- Zle_Qle; nia).
  apply (truncate_at_mono _ _ (frac_digits q)) in L1. apply (truncate_at_mono _ _ (frac_digits q)) in L2. rewrite T, <- V in L1, L2.
  destruct (C20_as_u64 m q W C) as [I1 _]. apply I1. split; [|exact L2].
  destruct (neg q) eqn:N; [exfalso|reflexivity]. apply NZ. split; [exact N|]. pose proof (neg_le q W N) as X. apply Qle_antisym; [exact X|exact L1].
Qed.

Lemma truncate_at_twice q f g : f <= g -> (truncate_at (truncate_at q g) f == truncate_at q f)%Q.
Proof.
  intros H. assert (E : (truncate_at q g * pow10 f == truncate_at (q * pow10 f) (g - f))%Q).
  { unfold truncate_at. rewrite (truncate_comp (q * pow10 f * pow10 (g - f)) (q * pow10 g)) by (rewrite <- Qmult_assoc, <- pow10_add; replace (f + (g - f)) with g by lia; reflexivity).
    rewrite <- Qmult_assoc, <- pow10_add. replace (- g + f) with (- (g - f)) by lia. reflexivity. }
  unfold truncate_at at 1 3. rewrite (truncate_comp _ _ E), truncate_truncate by lia. reflexivity.
Qed.
Lemma printed_quotient q x y f : 0 <= f <= 9 -> y <> 0 -> (x <> 0 -> frac_digits q = 9) -> (value q == truncate_at (inject_Z x / inject_Z y) (frac_digits q))%Q ->
  (truncate_at (value q) f == truncate_at (inject_Z x / inject_Z y) f)%Q.
Proof.
  intros Hf Y0 F V. rewrite (truncate_at_comp _ _ f V). destruct (Z.eq_dec x 0) as [->|X0].
  - assert (X : (inject_Z 0 / inject_Z y == 0)%Q) by (unfold Qdiv; ring). apply truncate_at_comp. rewrite (truncate_at_comp _ _ (frac_digits q) X), X.
    unfold truncate_at. rewrite (truncate_comp (0 * pow10 (frac_digits q)) (inject_Z 0)) by (change (inject_Z 0) with 0%Q; ring). rewrite truncate_Z. change (inject_Z 0) with 0%Q. ring.
  - rewrite (F X0). apply truncate_at_twice. lia.
Qed.

Lemma overflow_only a b res incr e q : wf a -> wf b -> ~ (value b == 0)%Q -> nothing_cut a b -> 0 <= incr -> sane_request a b incr ->
  div_to Debug a b res incr = Ret (Err e, q) -> e = Overflow /\ (pow10 81 <= Qabs (value a / value b))%Q.
Proof.
  intros Wa Wb Nb NC Hi Sn H. destruct (Qeq_dec (value a) 0) as [V|V]; [rewrite (div_to_zero Debug a b res incr Wa Wb V Nb) in H; discriminate|].
  destruct (proj1 (C97_debug_returns_iff a b res incr Wa Wb Nb NC Hi Sn)) as (_ & G1 & G2); [eauto|].
  destruct (div_to_run_gen Debug a b res incr _ q Wa Wb V Nb Hi Sn (release_good a b incr Wa Wb NC G2) H) as (k & E1 & _ & [(O & E & _)|(_ & E & _)]); [|discriminate].
  split; [congruence|]. eapply Qle_trans; [|exact E1]. apply pow10_mono. lia.
Qed.

(** Every quotient of two machine integers that a debug build returns: printed with
    nine fractional digits or fewer it is the exact quotient cut off there, and converted back it is the exact quotient rounded half away from zero. *)
Theorem C99_i64_quotients : forall x y, is_i64 x -> is_i64 y -> y <> 0 ->
  exists a b, from_i64 Debug x = Ret a /\ from_i64 Debug y = Ret b /\
    forall rs q, div_to Debug a b zero 4 = Ret (rs, q) -> rs = Ok tt /\
      (forall m f, 0 <= f <= 9 -> exists n, to_string m q f = Ret (numeral_bytes n) /\ canonical n /\ zlength (n_frac n) = f /\ (numeral_value n == truncate_at (inject_Z x / inject_Z y) f)%Q) /\
      (forall m, as_i64 m q = Ret (checked_i64 (round_away (inject_Z x / inject_Z y)))).
Proof.
  intros x y Hx Hy Y0. destruct (C97_i64 x y Hx Hy Y0) as (a & b & Ea & Eb & R & _). exists a, b. split; [exact Ea|]. split; [exact Eb|].
  intros rs q E. destruct (R rs q E) as (-> & W & C & NZ & F & V). split; [reflexivity|]. split; [|intros m; apply i64_back; assumption].
  intros m f Hf. destruct (C09_to_string_truncates m q f W (proj1 Hf)) as (n & E1 & E2 & _ & E3 & E4). exists n. split; [exact E1|]. split; [exact E2|]. split; [exact E3|].
  rewrite E4. apply printed_quotient; assumption.
Qed.
Print Assumptions C99_i64_quotients.
Theorem C99_u64_quotients : forall x y, is_u64 x -> is_u64 y -> y <> 0 ->
  exists a b, from_u64 Debug x = Ret a /\ from_u64 Debug y = Ret b /\
    forall rs q, div_to Debug a b zero 4 = Ret (rs, q) -> rs = Ok tt /\
      (forall m f, 0 <= f <= 9 -> exists n, to_string m q f = Ret (numeral_bytes n) /\ canonical n /\ zlength (n_frac n) = f /\ (numeral_value n == truncate_at (inject_Z x / inject_Z y) f)%Q) /\
      (forall m, as_u64 m q = Ret (Ok (round_away (inject_Z x / inject_Z y)))).
Proof.
  intros x y Hx Hy Y0. destruct (C97_u64 x y Hx Hy Y0) as (a & b & Ea & Eb & R & _). exists a, b. split; [exact Ea|]. split; [exact Eb|].
  intros rs q E. destruct (R rs q E) as (-> & W & C & NZ & F & V). split; [reflexivity|]. split; [|intros m; apply u64_back; assumption].
  intros m f Hf. destruct (C09_to_string_truncates m q f W (proj1 Hf)) as (n & E1 & E2 & _ & E3 & E4). exists n. split; [exact E1|]. split; [exact E2|]. split; [exact E3|].
  rewrite E4. apply printed_quotient; assumption.
Qed.
Print Assumptions C99_u64_quotients.

(** From string to string: whatever a debug build returns is the exact quotient cut off where its digits end, however long
    the numerals are, if the divisor has no more digits behind the point than the dividend. *)
Theorem C99_end_to_end_quotients : forall s t incr res i f i' f', short i f s -> short i' f' t -> i + f <= 65 -> i' + f' <= 65 -> zlength (n_frac t) <= zlength (n_frac s) -> ~ (numeral_value t == 0)%Q -> 0 <= incr <= 117 ->
  exists a b, from_str Debug (numeral_bytes s) = Ret (Ok a) /\ from_str Debug (numeral_bytes t) = Ret (Ok b) /\
    forall rs q, div_to Debug a b res incr = Ret (rs, q) ->
      (rs = Err Overflow /\ (pow10 81 <= Qabs (numeral_value s / numeral_value t))%Q) \/
      (rs = Ok tt /\ exists n, to_string Debug q (-1) = Ret (numeral_bytes n) /\ canonical n /\
         (numeral_value n == truncate_at (numeral_value s / numeral_value t) (zlength (n_frac n)))%Q /\
         (0 < zlength (n_frac n) -> forall m res' rs' r, rem_to m a b res' = Ret (rs', r) -> rs' = Ok tt /\
            exists n', to_string m r (-1) = Ret (numeral_bytes n') /\ canonical n' /\
              (numeral_value s == numeral_value t * inject_Z (truncate (numeral_value n)) + numeral_value n')%Q /\ (Qabs (numeral_value n') < Qabs (numeral_value t))%Q)).
Proof.
  intros s t incr res i f i' f' Hs Ht Ls Lt LF NZ Hi.
  destruct (short_parse Debug s _ _ Hs Ls) as (a & Ea & Ra & PVa & PNa & PIa & PFa). destruct (short_parse Debug t _ _ Ht Lt) as (b & Eb & Rb & PVb & PNb & PIb & PFb).
  destruct Hs as (OKs & EXs & LIs & LFs). destruct Ht as (OKt & EXt & LIt & LFt).
  pose proof Ra as (PWa & CLa & PTa & PHa). pose proof Rb as (PWb & CLb & PTb & PHb).
  assert (Nb : ~ (value b == 0)%Q) by (rewrite PVb; exact NZ).
  pose proof (zlength_nonneg _ (n_int s)) as Z1. pose proof (zlength_nonneg _ (n_frac s)) as Z2. pose proof (zlength_nonneg _ (n_int t)) as Z3. pose proof (zlength_nonneg _ (n_frac t)) as Z4.
  assert (NC : nothing_cut a b) by (left; unfold fu; apply units_mono; lia).
  assert (Sn : sane_request a b incr) by (unfold sane_request; lia).
  assert (EQ : (value a / value b == numeral_value s / numeral_value t)%Q) by (rewrite PVa, PVb; reflexivity).
  exists a, b. split; [exact Ea|]. split; [exact Eb|]. intros rs q HD. destruct rs as [[]|e].
  - right. split; [reflexivity|].
    destruct (C97_debug_quotients_are_right a b res incr q PWa PWb Nb NC (proj1 Hi) Sn HD) as (V & Wq & Cq & Nq & Zq & _).
    destruct (C08_to_string_is_exact Debug q Wq Nq) as (n & EN & CN & SN & FN & VN). exists n. split; [exact EN|]. split; [exact CN|]. split.
    + rewrite VN, FN, V. apply truncate_at_comp, EQ.
    + intros F0 m res' rs' r HR. rewrite FN in F0.
      destruct (C98_division_and_remainder_agree m a b res res' incr q rs' r PWa PWb Nb NC (proj1 Hi) Sn HD F0 HR) as (-> & E1 & E2 & _). split; [reflexivity|].
      assert (WN : wf r /\ nohidden r).
      { destruct (proj1 (C97_debug_returns_iff a b res incr PWa PWb Nb NC (proj1 Hi) Sn)) as (_ & _ & G2); [eauto|].
        assert (G : guesses_right (scaled a) (scaled b)) by (apply (quotient_gives_guesses a b res incr q); try assumption; lia).
        destruct (C37_truncated_remainder_partial m a b res' _ r PWa PWb Nb G HR) as (_ & _ & _ & _ & Wr & _ & _ & NH). auto. }
      destruct WN as [Wr Nr]. destruct (C08_to_string_is_exact m r Wr Nr) as (n' & EN' & CN' & _ & _ & VN'). exists n'. split; [exact EN'|]. split; [exact CN'|]. split.
      * rewrite VN', <- PVa, <- PVb, (truncate_comp _ _ VN). exact E1.
      * rewrite VN', <- PVb. exact E2.
  - left. destruct (overflow_only a b res incr e q PWa PWb Nb NC (proj1 Hi) Sn HD) as [-> B]. split; [reflexivity|]. rewrite <- EQ. exact B.
Qed.
Print Assumptions C99_end_to_end_quotients.

Example C99_example : exists s t, short 36 29 s /\ short 60 5 t /\ ~ (numeral_value t == 0)%Q /\ zlength (n_frac t) <= zlength (n_frac s) /\ numeral_bytes s = bytes "-123456789012345678901234567.25" /\ numeral_bytes t = bytes "9876543210987654321.5" /\
  exists a b q r, from_str Debug (numeral_bytes s) = Ret (Ok a) /\ from_str Debug (numeral_bytes t) = Ret (Ok b) /\ div_to Debug a b zero 4 = Ret (Ok tt, q) /\ rem_to Debug a b zero = Ret (Ok tt, r) /\
    to_string Debug q (-1) = Ret (bytes "-12499999.886093750000916015") /\ to_string Debug r (-1) = Ret (bytes "-8751543210870138888.75").
Proof.
  exists (mknum (Some true) [1;2;3;4;5;6;7;8;9;0;1;2;3;4;5;6;7;8;9;0;1;2;3;4;5;6;7] true [2;5] None), (mknum None [9;8;7;6;5;4;3;2;1;0;9;8;7;6;5;4;3;2;1] true [5] None).
  assert (D : forall l, forallb (fun x => (0 <=? x) && (x <=? 9)) l = true -> Forall is_digit l).
  { intros l H. apply Forall_forall. intros x X. rewrite forallb_forall in H. specialize (H x X). unfold is_digit. lia. }
  split; [repeat split; try (apply D; reflexivity); try discriminate|].
  split; [repeat split; try (apply D; reflexivity); try discriminate|]. split; [vm_compute; discriminate|]. split; [vm_compute; discriminate|]. split; [vm_compute; reflexivity|]. split; [vm_compute; reflexivity|].
  do 4 eexists. split; [vm_compute; reflexivity|]. split; [vm_compute; reflexivity|]. split; [vm_compute; reflexivity|]. split; [vm_compute; reflexivity|]. split; [vm_compute; reflexivity|]. vm_compute; reflexivity.
Qed.
