(** * Properties: divisions that cut off no units of the divisor (C97).
    [nothing_cut] and [guesses_right_but_last] are in [Spec_Guess]. *)
From Coq Require Import ZArith Zquot List Bool String Lia QArith Qabs Qround Lqa.
From Verif Require Import Rust Model_Base Model_Decimal Model_Arith Model_Serde Spec Spec_Div Spec_Guess Spec_Machine Lib QLib Sign Basics AddSub Cmp DivBasics Div3 Div5 DivQ DivFit DivG2 DivDebug DivSafe3 Laws MulQ RoundQ RemG Rem4 Rem7
  Prop_Print Prop_Div Prop_Robust Prop_Rem Prop_Exact Prop_Integers Prop_Near Prop_DivDebug Tests Witness.
Import ListNotations.
Open Scope Z_scope.

Lemma plan_units a b incr lnz rnz e : e = Z.max 0 (exp_of a b lnz rnz) -> Z.min (9 - e) (asked_units a b incr) = qfu a b incr lnz rnz.
Proof. intros ->. unfold asked_units, qfu, qiu. fold (exp_of a b lnz rnz). clear. lia. Qed.

Lemma guesses_plan (P : Z -> Z -> Prop) a b incr lnz rnz : wf a -> wf b -> lead2 a b lnz rnz ->
  ((forall e, 0 <= e <= 9 -> (Qabs (value a / value b) < pow10 (9 * e))%Q -> (0 < e -> (pow10 (9 * (e - 1)) <= Qabs (value a / value b))%Q) ->
    let F := Z.min (9 - e) (asked_units a b incr) in P (magnitude a * base ^ (F + fu b)) (magnitude b * base ^ fu a)) <->
   (exp_of a b lnz rnz <= 9 -> P (magnitude a * base ^ (qfu a b incr lnz rnz + fu b)) (magnitude b * base ^ fu a))).
Proof.
  intros Ha Hb L. split.
  - intros G O. destruct (exp_bounds a b lnz rnz Ha Hb L) as [B1 B2]. rewrite <- (plan_units a b incr lnz rnz _ eq_refl). apply (G (Z.max 0 (exp_of a b lnz rnz))); [clear - O; lia| |].
    + eapply Qlt_le_trans; [exact B2|]. apply pow10_mono. clear. lia.
    + intros Q. replace (Z.max 0 (exp_of a b lnz rnz)) with (exp_of a b lnz rnz) by (clear - Q; lia). exact B1.
  - intros G e He U V. cbv zeta. assert (EE := exp_unique a b lnz rnz e Ha Hb L (proj1 He) U V). rewrite (plan_units a b incr lnz rnz e EE). apply G. clear - EE He. lia.
Qed.

Lemma zero_guesses (P : Z -> Z -> Prop) a b incr : wf a -> (value a == 0)%Q -> (forall y, P 0 y) ->
  forall e, 0 <= e <= 9 -> (Qabs (value a / value b) < pow10 (9 * e))%Q -> (0 < e -> (pow10 (9 * (e - 1)) <= Qabs (value a / value b))%Q) ->
    let F := Z.min (9 - e) (asked_units a b incr) in P (magnitude a * base ^ (F + fu b)) (magnitude b * base ^ fu a).
Proof. intros Ha Va H e _ _ _ F. rewrite value_zero_iff in Va by exact Ha. rewrite Va, Z.mul_0_l. apply H. Qed.

Lemma zero_small y : guesses_small 0 y.
Proof. intros len j Hl By Hj H. exfalso. pose proof (pow_base_pos j Hj). pose proof (pow_base_pos (len - 1) ltac:(lia)). apply Z.le_ngt in H. apply H. apply Z.mul_pos_pos; lia. Qed.
Lemma zero_right y : right_but_last 0 y.
Proof. intros len j Hl By Hj H. exfalso. pose proof (pow_base_pos j ltac:(lia)). pose proof (pow_base_pos (len - 1) ltac:(lia)). apply Z.le_ngt in H. apply H. apply Z.mul_pos_pos; lia. Qed.

(** A debug build returns exactly if the quotient fits, every first guess is a unit,
    and every corrected guess but the last is right. *)
Theorem C97_debug_returns_iff : forall a b res incr, wf a -> wf b -> ~ (value b == 0)%Q -> nothing_cut a b -> 0 <= incr -> sane_request a b incr ->
  ((exists o, div_to Debug a b res incr = Ret o) <-> division_fits a b incr /\ first_guesses_fit a b incr /\ guesses_right_but_last a b incr).
Proof.
  intros a b res incr Ha Hb Vb NC Hi Sn. destruct (Qeq_dec (value a) 0) as [Va|Va].
  { assert (Z : exists o, div_to Debug a b res incr = Ret o) by (eexists; apply (div_to_zero Debug a b res incr Ha Hb Va Vb)). split; [intros _|intros _; exact Z]. split; [|split].
    - intros p q L _. destruct (no_leading a p Va L).
    - exact (zero_guesses guesses_small a b incr Ha Va zero_small).
    - exact (zero_guesses right_but_last a b incr Ha Va zero_right). }
  pose proof Va as Na. pose proof Vb as Nb. rewrite value_zero_iff in Na, Nb by assumption.
  pose proof (wf_counts a Ha) as CA. pose proof (wf_counts b Hb) as CB.
  destruct (div_abs_safe a b res incr Ha Hb Na Nb NC Hi Sn) as (lnz & rnz & L & I). rewrite (fits_iff a b incr lnz rnz Ha Hb Nb L).
  unfold first_guesses_fit, guesses_right_but_last. rewrite (guesses_plan guesses_small a b incr lnz rnz Ha Hb L), (guesses_plan right_but_last a b incr lnz rnz Ha Hb L).
  set (X := magnitude a * base ^ (qfu a b incr lnz rnz + fu b)) in *. set (Y := magnitude b * base ^ fu a) in *.
  assert (X0 : 0 <= X) by (apply Z.mul_nonneg_nonneg; [apply magnitude_nonneg, Ha|]; apply Z.pow_nonneg; discriminate).
  transitivity (exists o, div_abs Debug a b res incr = Ret o).
  - unfold div_to. cbv zeta. rewrite as_isize_id by (unfold sane_request in Sn; clear - Sn CA CB Hi; lia). split.
    + intros [o H]. apply bind_inv in H. destruct H as (o' & E & _). eauto.
    + intros [[rs d] E]. rewrite E. mret. cbn [finish_sign]. destruct rs; eauto.
  - rewrite I. split.
    + intros (R & B & G). split; [split; assumption|]. split; intros O; destruct (G O) as (G1 & G2); [apply G1; reflexivity|exact G2].
    + intros ((R & B) & G1 & G2). split; [exact R|]. split; [exact B|]. intros O. split; [intros _; apply G1, O|]. apply G2, O.
Qed.
Print Assumptions C97_debug_returns_iff.

Lemma release_good a b incr : wf a -> wf b -> nothing_cut a b -> guesses_right_but_last a b incr -> long_good Release a b incr.
Proof.
  intros Ha Hb NC G1. apply long_good_all; try assumption. intros lnz rnz L O. split; [discriminate|]. apply (guesses_plan right_but_last a b incr lnz rnz Ha Hb L); assumption.
Qed.

Lemma right_quotient m a b res incr d : wf a -> wf b -> ~ (value b == 0)%Q -> nothing_cut a b -> guesses_right_but_last a b incr -> 0 <= incr -> sane_request a b incr ->
  div_to m a b res incr = Ret (Ok tt, d) ->
  (value d == truncate_at (value a / value b) (frac_digits d))%Q /\
  wf d /\ clean d /\ nohidden d /\ ~ negzero d /\ (~ (value d == 0)%Q -> neg d = xorb (neg a) (neg b)).
Proof.
  intros Ha Hb Nb NC G1 Hi Rm H.
  destruct (Qeq_dec (value a) 0) as [V|V].
  { rewrite (div_to_zero m a b res incr Ha Hb V Nb) in H. injection H as <-. split; [|hyps; intros X; exfalso; apply X; reflexivity].
    transitivity (truncate_at 0 (frac_digits zero)); [reflexivity|]. apply truncate_at_comp. rewrite V. unfold Qdiv. ring. }
  destruct (div_to_run_gen m a b res incr _ d Ha Hb V Nb Hi Rm (release_good a b incr Ha Hb NC G1) H) as (e & _ & _ & [(_ & ? & _)|(_ & _ & W & C & N & NZ & S & _ & _ & _ & E & _)]); [discriminate|].
  auto 10.
Qed.

(** Whatever quotient a debug build returns is the right one, however long the divisor. *)
Theorem C97_debug_quotients_are_right : forall a b res incr d, wf a -> wf b -> ~ (value b == 0)%Q -> nothing_cut a b -> 0 <= incr -> sane_request a b incr ->
  div_to Debug a b res incr = Ret (Ok tt, d) ->
  (value d == truncate_at (value a / value b) (frac_digits d))%Q /\
  wf d /\ clean d /\ nohidden d /\ ~ negzero d /\ (~ (value d == 0)%Q -> neg d = xorb (neg a) (neg b)).
Proof.
  intros a b res incr d Ha Hb Nb NC Hi Sn H. destruct (proj1 (C97_debug_returns_iff a b res incr Ha Hb Nb NC Hi Sn)) as (_ & G1 & G2); [eauto|].
  eapply right_quotient; eassumption.
Qed.
Print Assumptions C97_debug_quotients_are_right.

(** It has as many integral units as the quotient needs, and the fractional units asked for, if there is room. *)
Theorem C97_debug_quotient_units : forall a b res incr d, wf a -> wf b -> ~ (value a == 0)%Q -> ~ (value b == 0)%Q -> nothing_cut a b -> 0 <= incr -> sane_request a b incr ->
  div_to Debug a b res incr = Ret (Ok tt, d) ->
  (Qabs (value a / value b) < pow10 (9 * iu d))%Q /\ (0 < iu d -> (pow10 (9 * (iu d - 1)) <= Qabs (value a / value b))%Q) /\
  frac_digits d = 9 * Z.min 4 (Z.min (9 - iu d) (Z.max (fu a + fu b) (units_for (frac_digits a + frac_digits b + incr)))).
Proof.
  intros a b res incr d Ha Hb V Nb NC Hi Sn H. destruct (proj1 (C97_debug_returns_iff a b res incr Ha Hb Nb NC Hi Sn)) as (_ & G1 & G2); [eauto|].
  destruct (div_to_run_gen Debug a b res incr _ d Ha Hb V Nb Hi Sn (release_good a b incr Ha Hb NC G2) H) as (e & E1 & E2 & [(_ & ? & _)|(_ & _ & W & C & N & NZ & S & I & F1 & F2 & E & _)]); [discriminate|].
  rewrite F1, I in *. split; [|split].
  - eapply Qlt_le_trans; [exact E2|]. apply pow10_mono. clear. lia.
  - intros P. replace (Z.max 0 e) with e by (clear - P; lia). exact E1.
  - rewrite F2 at 1. reflexivity.
Qed.
Print Assumptions C97_debug_quotient_units.

(** A release build, where the guesses are right, returns if the quotient fits, and returns the right one. *)
Theorem C97_release_quotients : forall a b res incr, wf a -> wf b -> ~ (value b == 0)%Q -> nothing_cut a b -> 0 <= incr -> sane_request a b incr ->
  guesses_right_but_last a b incr ->
  ((exists o, div_to Release a b res incr = Ret o) <-> division_fits a b incr) /\
  (forall d, div_to Release a b res incr = Ret (Ok tt, d) -> (value d == truncate_at (value a / value b) (frac_digits d))%Q /\
     wf d /\ clean d /\ nohidden d /\ ~ negzero d /\ (~ (value d == 0)%Q -> neg d = xorb (neg a) (neg b))).
Proof.
  intros a b res incr Ha Hb Nb NC Hi Sn G1. split; [|intros d H; eapply right_quotient; eassumption].
  destruct (Qeq_dec (value a) 0) as [Va|Va].
  { split; [intros _ p q L _; destruct (no_leading a p Va L)|]. intros _. eexists. apply (div_to_zero Release a b res incr Ha Hb Va Nb). }
  destruct (div_to_fits Release a b res incr Ha Hb Va Nb Hi Sn) as [R1 R2]. split; [intros [o H]; apply (R2 o H)|]. apply R1, good_returns, release_good; assumption.
Qed.
Print Assumptions C97_release_quotients.

(** ** Machine integers *)

Lemma second_guess_shift x y len j : 2 <= len -> 0 <= j -> 0 < y -> second_guess (x * base) y len (j + 1) = second_guess x y len j.
Proof.
  intros Hl Hj Hy. unfold second_guess. cbv zeta. set (f := norm_factor y len). f_equal.
  assert (R : rest (x * base) y (j + 1) = rest x y j * base).
  { unfold rest. replace (j + 1 + 1) with (1 + (j + 1)) by lia. rewrite (base_pow_split 1), Z.pow_1_r by lia. replace (y * (base * base ^ (j + 1))) with (y * base ^ (j + 1) * base) by ring.
    apply Z.mul_mod_distr_r; [|discriminate]. pose proof (pow_base_pos (j + 1) ltac:(lia)). apply Z.neq_mul_0. lia. }
  rewrite R. replace (j + 1 + len - 2) with (1 + (j + len - 2)) by lia. rewrite (base_pow_split 1), Z.pow_1_r, Z.mul_assoc, (Z.mul_comm base) by lia.
  apply Z.div_mul_cancel_r; [|discriminate]. apply Z.pow_nonzero; [discriminate|lia].
Qed.

Lemma long_machine_guesses u v : 0 <= u < 10 ^ 20 -> 10 ^ 18 <= v < 10 ^ 20 -> (guesses_small (u * base) v /\ right_but_last (u * base) v <-> long_quotient_found u v).
Proof.
  intros [U0 X] [V0 VV]. unfold long_quotient_found, shortened_quotient. rewrite !Z.abs_eq by lia. 
  change (10 ^ 9) with base. change (10 ^ 18) with (base ^ 2) in *. change (10 ^ 20) with (100 * base ^ 2) in *. assert (B2 : base ^ 2 = base * base) by reflexivity. assert (BB : base = 1000000000) by reflexivity.
  assert (B3 : base ^ 3 = base * base ^ 2) by reflexivity. assert (P2 : 0 < base ^ 2) by reflexivity.
  assert (L3 : base ^ (3 - 1) <= v < base ^ 3) by (change (3 - 1) with 2; split; [exact V0|]; apply Z.lt_trans with (1 := VV); reflexivity).
  assert (VB : 1 <= v / base ^ 2 < 100) by (clear - V0 VV P2; split; [apply Z.div_le_lower_bound; lia|apply Z.div_lt_upper_bound; lia]).
  assert (VB' : 1 <= v / base ^ 2 < base) by (clear - VB BB; lia).
  pose proof (nf_facts (v / base ^ 2) VB') as NF. cbv zeta in NF. destruct NF as (N2 & N3 & N4).
  assert (NFE : norm_factor v 3 = base / (v / base ^ 2 + 1)) by reflexivity.
  cbv zeta. set (f := base / (v / base ^ 2 + 1)) in *. clearbody f. assert (Hv : 0 < v) by (clear - V0 P2; lia).
  assert (PD : base <= 3 * (f * v / base ^ 2)). { assert (f * (v / base ^ 2) <= f * v / base ^ 2); [|clear - H N4; lia]. apply Z.div_le_lower_bound; [exact P2|]. rewrite Z.mul_assoc, (Z.mul_comm (base ^ 2) f), <- Z.mul_assoc. apply Z.mul_le_mono_nonneg_l; [clear - N2; lia|]. apply Z.mul_div_le. exact P2. }
  assert (D1 : f * v / base ^ (3 - 1) = f * v / base ^ 2) by reflexivity. assert (D2 : f * v / base ^ (3 - 2) = f * v / base) by (change (3 - 2) with 1; rewrite Z.pow_1_r; reflexivity).
  assert (R0 : rest (u * base) v 0 = u mod v * base) by (unfold rest; change (0 + 1) with 1; rewrite !Z.pow_1_r; apply Z.mul_mod_distr_r; [clear - Hv; lia|discriminate]).
  assert (E0 : first_guess (u * base) v 3 0 = f * (u mod v) / base / (f * v / base ^ 2)).
  { unfold first_guess. cbv zeta. rewrite NFE, D1, R0. f_equal. change (0 + 3 - 1) with 2. rewrite Z.mul_assoc, B2. apply Z.div_mul_cancel_r; discriminate. }
  assert (UM : u mod (v * base ^ 1) = u). { apply Z.mod_small. split; [exact U0|]. rewrite Z.pow_1_r. apply Z.lt_le_trans with (1 := X). clear - V0 BB P2. set (p := base ^ 2) in *. clearbody p. rewrite BB. lia. }
  assert (R1 : rest u v 0 = u) by exact UM.
  assert (E1 : first_guess (u * base) v 3 1 = f * u / base ^ 2 / (f * v / base ^ 2)).
  { change 1 with (0 + 1). rewrite first_guess_shift by (clear - Hv; lia). unfold first_guess. cbv zeta. rewrite NFE, D1, R1. reflexivity. }
  assert (S1 : second_guess (u * base) v 3 1 = f * u / base / (f * v / base)).
  { change 1 with (0 + 1). rewrite second_guess_shift by (clear - Hv; lia). unfold second_guess. cbv zeta. rewrite NFE, D2, R1. change (0 + 3 - 2) with 1. rewrite Z.pow_1_r. reflexivity. }
  assert (Q1 : quotient_unit (u * base) v 1 = u / v).
  { unfold quotient_unit, rest. rewrite Z.pow_1_r. change (1 + 1) with 2. replace (v * base ^ 2) with (v * base ^ 1 * base) by (rewrite B2, Z.pow_1_r; ring).
    rewrite Z.mul_mod_distr_r by (try discriminate; clear - Hv BB; rewrite Z.pow_1_r, BB; lia). rewrite UM. apply Z.div_mul_cancel_r; [clear - Hv; lia|discriminate]. }
  assert (D0 : 0 < f * v / base ^ 2) by (clear - PD BB; lia).
  assert (FD : f * v < base ^ 2 * Z.succ (f * v / base ^ 2)) by (apply Z.mul_succ_div_gt; exact P2). 
  assert (JJ : forall j, 0 <= j -> v * base ^ j <= u * base -> j = 0 \/ (j = 1 /\ v <= u)).
  { intros j Hj G. destruct (Z.eq_dec j 0) as [->|J0]; [auto|right]. destruct (Z.eq_dec j 1) as [->|J1].
    - split; [reflexivity|]. rewrite Z.pow_1_r in G. clear - G BB. rewrite BB in G. lia.
    - exfalso. assert (G1 : v * base ^ 2 <= v * base ^ j) by (apply Z.mul_le_mono_nonneg_l; [clear - Hv; lia|]; apply Z.pow_le_mono_r; [reflexivity|clear - Hj J0 J1; lia]).
      clear - G G1 V0 X B2 BB. set (w := v * base ^ j) in *. clearbody w. rewrite B2, BB in *. lia. }
  assert (LU : forall len, 2 <= len -> base ^ (len - 1) <= v < base ^ len -> len = 3) by (intros len Hl By; apply (len_unique v); try assumption; clear - Hl; lia).
  rewrite <- E0, <- S1, <- Q1. split.
  - intros [G1 G2]. split.
    + intros UV. apply G2; [lia|exact L3|lia|]. rewrite Z.pow_1_r. apply Z.mul_le_mono_nonneg_r; [discriminate|exact UV].
    + destruct (Z.lt_ge_cases (u * base) v) as [UV|UV]; [|apply G1; [lia|exact L3|lia|rewrite Z.pow_0_r; clear - UV; lia]].
      rewrite E0. rewrite Z.mod_small by (clear - UV U0 BB; lia). apply Z.div_lt_upper_bound; [exact D0|]. apply Z.div_lt_upper_bound; [discriminate || reflexivity|].
      assert (FU : f * (u * base) < f * v) by (apply Z.mul_lt_mono_pos_l; [clear - N2; lia|exact UV]). rewrite Z.mul_assoc in FU. set (g := f * u) in *. set (d := f * v / base ^ 2) in *. clearbody g d. clear - FU FD D0 BB B2. rewrite B2, BB in *. lia.
  - intros [G1 G2]. split.
    + intros len j Hl By Hj G. rewrite (LU len Hl By). destruct (JJ j Hj G) as [->|[-> UV]]; [exact G2|]. rewrite E1.
      apply Z.div_lt_upper_bound; [exact D0|]. apply Z.div_lt_upper_bound; [exact P2|].
      apply Z.lt_le_trans with (f * (100 * base ^ 2)); [apply Z.mul_lt_mono_pos_l; [clear - N2; lia|exact X]|]. replace (f * (100 * base ^ 2)) with (base ^ 2 * (100 * f)) by ring.
      apply Z.mul_le_mono_nonneg_l; [discriminate|]. clear - N2 PD BB. rewrite BB in *. lia.
    + intros len j Hl By Hj G. rewrite (LU len Hl By). destruct (JJ j ltac:(clear - Hj; lia) G) as [->|[-> UV]]; [exfalso; clear - Hj; lia|]. apply G1, UV.
Qed.

Lemma machine_cut a b x y : machine a x -> machine b y -> nothing_cut a b.
Proof. intros A B. destruct (machine_units a x A) as (_ & FA & _), (machine_units b y B) as (_ & FB & _). left. lia. Qed.

Lemma integer_quotient_bound x y n : y <> 0 -> 0 <= n -> Z.abs x < 10 ^ n -> (Qabs (inject_Z x / inject_Z y) < pow10 n)%Q.
Proof.
  intros Hy Hn Hx. assert (P : forall z, (Qabs (inject_Z z) == inject_Z (Z.abs z))%Q) by (intros z; reflexivity). assert (Ny : ~ (inject_Z y == 0)%Q) by (intros X; unfold Qeq in X; cbn in X; lia).
  assert (I : (Qabs (inject_Z x / inject_Z y) * inject_Z (Z.abs y) == inject_Z (Z.abs x))%Q) by (rewrite <- !P, <- Qabs_Qmult; apply Qabs_wd; field; exact Ny).
  rewrite (pow10_nonneg n Hn). assert (Y1 : (1 <= inject_Z (Z.abs y))%Q) by (change 1%Q with (inject_Z 1); rewrite <- Zle_Qle; lia).
  assert (X1 : (inject_Z (Z.abs x) < inject_Z (10 ^ n))%Q) by (rewrite <- Zlt_Qlt; lia). rewrite <- I in X1. set (q := Qabs (inject_Z x / inject_Z y)) in *. assert (Q0 : (0 <= q)%Q) by apply Qabs_nonneg.
  clearbody q. apply Qle_lt_trans with (2 := X1). rewrite <- (Qmult_1_r q) at 1. rewrite (Qmult_comm q 1), (Qmult_comm q). apply Qmult_le_compat_r; assumption.
Qed.

(** In a debug build, whatever comes back is right. *)
Lemma machine_debug_right a b x y : machine a x -> machine b y -> y <> 0 -> Z.abs x < 10 ^ 20 ->
  forall rs q, div_to Debug a b zero 4 = Ret (rs, q) -> rs = Ok tt /\ wf q /\ clean q /\ ~ negzero q /\ (x <> 0 -> frac_digits q = 9) /\ (value q == truncate_at (inject_Z x / inject_Z y) (frac_digits q))%Q.
Proof.
  intros A B Hy Hx rs q E. destruct (machine_units a x A) as (UA & FA & MA), (machine_units b y B) as (UB & FB & MB). pose proof (machine_nonzero b y B Hy) as Nb.
  pose proof A as [(Wa & _) Va F0a _ Za]. pose proof B as [(Wb & _) Vb F0b _ _]. pose proof (machine_cut a b x y A B) as NC.
  assert (Rm : div_room a b 4) by (apply C34_room; try assumption; lia). pose proof (room_sane a b 4 Rm) as Sn.
  assert (Vq : (value a / value b == inject_Z x / inject_Z y)%Q) by (rewrite Va, Vb; reflexivity).
  assert (QB : (Qabs (value a / value b) < pow10 20)%Q) by (rewrite Vq; apply integer_quotient_bound; [exact Hy|lia|exact Hx]).
  assert (Ok1 : rs = Ok tt).
  { destruct rs as [[]|e]; [reflexivity|exfalso]. destruct (C34_overflow_iff Debug a b zero 4 Wa Wb Nb ltac:(lia) Rm) as [O _]. refine (O _ e q E). eapply Qlt_le_trans; [exact QB|]. apply pow10_mono. lia. }
  subst rs. split; [reflexivity|]. destruct (C97_debug_quotients_are_right a b zero 4 q Wa Wb Nb NC ltac:(lia) Sn E) as (V & W & C & _ & NZ & _).
  split; [exact W|]. split; [exact C|]. split; [exact NZ|]. split; [|rewrite V; apply truncate_at_comp, Vq].
  intros X0. destruct (C97_debug_quotient_units a b zero 4 q Wa Wb (machine_nonzero a x A X0) Nb NC ltac:(lia) Sn E) as (Q1 & Q2 & F).
  rewrite FA, FB, F0a, F0b in F. change (units_for (0 + 0 + 4)) with 1 in F. change (Z.max (0 + 0) 1) with 1 in F. pose proof (wf_counts q W) as CQ.
  assert (iu q <= 8); [|lia]. destruct (Z.le_gt_cases (iu q) 8) as [L|L]; [exact L|exfalso]. specialize (Q2 ltac:(lia)).
  apply (Qlt_not_le _ _ QB). eapply Qle_trans; [|exact Q2]. apply pow10_mono. lia.
Qed.

Lemma machine_debug_long a b x y : machine a x -> machine b y -> 10 ^ 18 <= Z.abs y < 10 ^ 20 -> Z.abs x < 10 ^ 20 -> ((exists o, div_to Debug a b zero 4 = Ret o) <-> long_quotient_found x y).
Proof.
  intros A B Hy Hx. assert (Y0 : y <> 0) by lia. destruct (machine_units a x A) as (UA & FA & MA), (machine_units b y B) as (UB & FB & MB). pose proof (machine_nonzero b y B Y0) as Nb.
  pose proof A as [(Wa & _) Va F0a _ _]. pose proof B as [(Wb & _) Vb F0b _ _]. pose proof (machine_cut a b x y A B) as NC.
  assert (Rm : div_room a b 4) by (apply C34_room; try assumption; lia). pose proof (room_sane a b 4 Rm) as Sn.
  rewrite (C97_debug_returns_iff a b zero 4 Wa Wb Nb NC ltac:(lia) Sn).
  assert (DF : division_fits a b 4).
  { destruct (Qeq_dec (value a) 0) as [V0|V0]; [intros p q L _; destruct (no_leading a p V0 L)|]. apply fits_simple; try assumption. lia. }
  assert (QF : long_quotient_found x y <-> long_quotient_found (Z.abs x) (Z.abs y)) by (unfold long_quotient_found, shortened_quotient; rewrite !Z.abs_involutive; reflexivity).
  rewrite QF, <- (long_machine_guesses (Z.abs x) (Z.abs y) ltac:(lia) Hy).
  assert (XA : (Qabs (value a / value b) < pow10 (9 * 3))%Q).
  { rewrite Va, Vb. eapply Qlt_le_trans; [apply (integer_quotient_bound x y 20); [exact Y0|lia|exact Hx]|]. apply pow10_mono. lia. }
  assert (AU : asked_units a b 4 = 1) by (unfold asked_units; rewrite FA, FB, F0a, F0b; reflexivity).
  assert (GP : forall P : Z -> Z -> Prop, (forall e, 0 <= e <= 9 -> (Qabs (value a / value b) < pow10 (9 * e))%Q -> (0 < e -> (pow10 (9 * (e - 1)) <= Qabs (value a / value b))%Q) ->
    let F := Z.min (9 - e) (asked_units a b 4) in P (magnitude a * base ^ (F + fu b)) (magnitude b * base ^ fu a)) <-> P (Z.abs x * base) (Z.abs y)).
  { intros P. split.
    - intros G.
      assert (E : exists e, 0 <= e <= 3 /\ (Qabs (value a / value b) < pow10 (9 * e))%Q /\ (0 < e -> (pow10 (9 * (e - 1)) <= Qabs (value a / value b))%Q)).
      { destruct (Qlt_le_dec (Qabs (value a / value b)) (pow10 (9 * 0))) as [L0|L0]; [exists 0; split; [lia|]; split; [exact L0|lia]|].
        destruct (Qlt_le_dec (Qabs (value a / value b)) (pow10 (9 * 1))) as [L1|L1]; [exists 1; split; [lia|]; split; [exact L1|intros _; exact L0]|].
        destruct (Qlt_le_dec (Qabs (value a / value b)) (pow10 (9 * 2))) as [L2|L2]; [exists 2; split; [lia|]; split; [exact L2|intros _; exact L1]|].
        exists 3. split; [lia|]. split; [exact XA|intros _; exact L2]. }
      destruct E as (e & He & E1 & E2). specialize (G e ltac:(lia) E1 E2). cbv zeta in G. rewrite AU, FA, FB, MA, MB in G. replace (Z.min (9 - e) 1) with 1 in G by (clear - He; lia).
      change (base ^ (1 + 0)) with base in G. rewrite Z.pow_0_r, Z.mul_1_r in G. exact G.
    - intros G e He E1 E2. cbv zeta. rewrite AU, FA, FB, MA, MB.
      assert (E3 : e <= 3). { destruct (Z.le_gt_cases e 3) as [|C]; [assumption|exfalso]. apply (Qlt_not_le _ _ XA). eapply Qle_trans; [|apply E2; lia]. apply pow10_mono. lia. }
      replace (Z.min (9 - e) 1) with 1 by (clear - E3; lia). change (base ^ (1 + 0)) with base. rewrite Z.pow_0_r, Z.mul_1_r. exact G. }
  unfold first_guesses_fit, guesses_right_but_last. rewrite (GP guesses_small), (GP right_but_last). tauto.
Qed.

(** Machine integers: whatever a debug build returns is the quotient cut off after nine digits behind the point; and which
    come back, for divisors of 19 or 20 digits (C96 has the shorter ones). *)
Theorem C97_i64 : forall x y, is_i64 x -> is_i64 y -> y <> 0 -> exists a b, from_i64 Debug x = Ret a /\ from_i64 Debug y = Ret b /\
  (forall rs q, div_to Debug a b zero 4 = Ret (rs, q) -> rs = Ok tt /\ wf q /\ clean q /\ ~ negzero q /\ (x <> 0 -> frac_digits q = 9) /\ (value q == truncate_at (inject_Z x / inject_Z y) (frac_digits q))%Q) /\
  (10 ^ 18 <= Z.abs y -> ((exists o, div_to Debug a b zero 4 = Ret o) <-> long_quotient_found x y)).
Proof.
  intros x y Hx Hy Y0. destruct (i64_machine Debug x Hx) as (a & Ea & A), (i64_machine Debug y Hy) as (b & Eb & B). exists a, b. split; [exact Ea|]. split; [exact Eb|].
  unfold is_i64 in Hx, Hy. split; [apply machine_debug_right; try assumption; lia|]. intros Y1. apply machine_debug_long; try assumption; lia.
Qed.
Print Assumptions C97_i64.
Theorem C97_u64 : forall x y, is_u64 x -> is_u64 y -> y <> 0 -> exists a b, from_u64 Debug x = Ret a /\ from_u64 Debug y = Ret b /\
  (forall rs q, div_to Debug a b zero 4 = Ret (rs, q) -> rs = Ok tt /\ wf q /\ clean q /\ ~ negzero q /\ (x <> 0 -> frac_digits q = 9) /\ (value q == truncate_at (inject_Z x / inject_Z y) (frac_digits q))%Q) /\
  (10 ^ 18 <= y -> ((exists o, div_to Debug a b zero 4 = Ret o) <-> long_quotient_found x y)).
Proof.
  intros x y Hx Hy Y0. destruct (u64_machine Debug x Hx) as (a & Ea & A), (u64_machine Debug y Hy) as (b & Eb & B). exists a, b. split; [exact Ea|]. split; [exact Eb|].
  unfold is_u64 in Hx, Hy. split; [apply machine_debug_right; try assumption; lia|]. intros Y1. apply machine_debug_long; try assumption; lia.
Qed.
Print Assumptions C97_u64.

Example C97_example : ~ long_quotient_found 3000000000000000002 1000000000000000001 /\ ~ long_quotient_found 1000000000000000000 1000000000000000001 /\
  long_quotient_found 8999999999999999998 (-2000000000999999999) /\ long_quotient_found 5 1000000000000000001 /\
  (exists a b, from_i64 Debug 3000000000000000002 = Ret a /\ from_i64 Debug 1000000000000000001 = Ret b /\ div_to Debug a b zero 4 = Panic PAssert) /\
  (exists a b q, from_i64 Debug 8999999999999999998 = Ret a /\ from_i64 Debug (-2000000000999999999) = Ret b /\ div_to Debug a b zero 4 = Ret (Ok tt, q) /\ to_string Debug q (-1) = Ret (bytes "-4.499999997")) /\
  (let a := dec "123456789012345678901234567890.5" in let b := dec "98765432109876543210.987654321" in wf a /\ wf b /\ ~ (value b == 0)%Q /\ nothing_cut a b /\ sane_request a b 4 /\
    exists q, div_to Debug a b zero 4 = Ret (Ok tt, q) /\ to_string Debug q (-1) = Ret (bytes "1249999988.609375000142382812")) /\
  (let a := dec "123456789012345678901234567890" in let b := dec "9876543210.987654321987654321" in wf a /\ wf b /\ ~ (value b == 0)%Q /\ nothing_cut a b /\ ~ fu b <= fu a).
Proof.
  split; [intros [H _]; vm_compute in H; specialize (H ltac:(discriminate)); discriminate H|].
  split; [intros [_ H]; vm_compute in H; discriminate H|].
  split; [split; vm_compute; reflexivity|]. split; [split; [intros H; vm_compute in H; exfalso; apply H; reflexivity|vm_compute; reflexivity]|].
  split; [do 2 eexists; split; [vm_compute; reflexivity|]; split; [vm_compute; reflexivity|]; vm_compute; reflexivity|].
  split; [do 3 eexists; split; [vm_compute; reflexivity|]; split; [vm_compute; reflexivity|]; split; [vm_compute; reflexivity|]; vm_compute; reflexivity|].
  split; intros a b; (assert (W : wf a /\ wf b /\ ~ (value b == 0)%Q) by (subst a b; hyps)); destruct W as (Wa & Wb & Nb); (split; [exact Wa|]); (split; [exact Wb|]); (split; [exact Nb|]).
  - split; [left; vm_compute; discriminate|]. split; [unfold sane_request; vm_compute; discriminate|]. eexists. split; [vm_compute; reflexivity|]. vm_compute. reflexivity.
  - split; [right; vm_compute; discriminate|]. vm_compute. intros H. apply H. reflexivity.
Qed.
