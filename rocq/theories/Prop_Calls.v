(** * Property C102: histories with division. *)
From Coq Require Import ZArith List Bool String Lia QArith Qabs Lqa.
From Verif Require Import Rust Model_Base Model_Cmp Model_Round Model_Decimal Model_Arith Model_Serde Spec Spec_Div Spec_Guess Spec_History Spec_Calls Lib Cmp AddSub Sign AddTo AddSubQ Basics QLib Round RoundTo RoundQ Conv
  MulAbs MulQ MulLaws DivBasics Div3 Div5 DivQ DivG2 Rem4 Rem5 History Prop_AddSub Prop_Robust Prop_Print Prop_Safe Prop_History Tests Witness.
Import ListNotations.
Open Scope Z_scope.

(** Decimals that may declare too few integral digits, as quotients do. *)
Definition plain (d : fd) : Prop := wf d /\ clean d /\ nohidden d.
Lemma regular_plain d : regular d -> plain d.
Proof. intros (A & B & _ & D). repeat (split; [assumption|]). assumption. Qed.
Lemma plain_zero : plain zero.
Proof. apply regular_plain, regular_zero. Qed.
Lemma same_plain d d' : same_digits d d' -> wf d' -> plain d -> plain d'.
Proof. intros S W (A & B & D). split; [exact W|]. split; [eauto using same_clean|eauto using same_nohidden]. Qed.

Lemma quotient_step m a b res incr rs d : wf a -> wf b -> 0 <= incr -> sane_request a b incr ->
  significant_units 2 b \/ tame (asked_units a b incr) a b \/ nothing_cut a b /\ (m = Release -> guesses_right_but_last a b incr) ->
  div_to m a b res incr = Ret (rs, d) ->
  plain d /\ ((value b == 0)%Q -> (value d == 0)%Q) /\
  (~ (value b == 0)%Q -> (pow10 81 <= Qabs (value a / value b))%Q -> (value d == 0)%Q) /\
  (~ (value b == 0)%Q -> (Qabs (value a / value b) < pow10 81)%Q ->
     exists f, 0 <= f <= 36 /\ (0 < incr -> (Qabs (value a / value b) < pow10 72)%Q -> 9 <= f) /\ (value d == truncate_at (value a / value b) f)%Q).
Proof.
  intros Wa Wb Hi Sn G H.
  destruct (Qeq_dec (value b) 0) as [Vb|Vb].
  { rewrite (div_dbz m a b res incr Wa Wb Vb) in H. injection H as <- <-. split; [apply plain_zero|]. split; [reflexivity|]. split; intros X; exfalso; exact (X Vb). }
  destruct (Qeq_dec (value a) 0) as [Va|Va].
  { rewrite (div_to_zero m a b res incr Wa Wb Va Vb) in H. injection H as <- <-. split; [apply plain_zero|]. split; [reflexivity|]. split; [reflexivity|].
    intros _ _. exists 9. split; [lia|]. split; [lia|]. transitivity (truncate_at 0 9); [reflexivity|]. apply truncate_at_comp. rewrite Va. unfold Qdiv. ring. }
  assert (LG : long_good Release a b incr).
  { destruct G as [G|[G|[NC G]]]; [apply (long_good_release a b incr Wa Wb); auto..|]. apply (release_good a b incr Wa Wb NC).
    destruct m; [|auto]. destruct (proj1 (C97_debug_returns_iff a b res incr Wa Wb Vb NC Hi Sn)) as (_ & _ & G2); [eauto|exact G2]. }
  destruct (div_to_run_gen m a b res incr rs d Wa Wb Va Vb Hi Sn LG H) as (e & E1 & E2 & [(O & _ & ->)|(O & _ & W & C & N & NZ & S & I & F1 & F2 & V & _)]).
  - split; [apply plain_zero|]. split; [reflexivity|]. split; [reflexivity|]. intros _ L. exfalso. refine (Qlt_not_le _ _ L _). eapply Qle_trans; [|exact E1]. apply pow10_mono. lia.
  - split; [split; [exact W|split; assumption]|]. split; [intros X; exfalso; exact (Vb X)|]. split.
    + intros _ L. exfalso. refine (Qlt_not_le _ _ E2 _). eapply Qle_trans; [|exact L]. apply pow10_mono. lia.
    + intros _ _. exists (frac_digits d). pose proof (wf_counts a Wa) as CA. pose proof (wf_counts b Wb) as CB. pose proof (wf_counts d W) as CD.
      split; [lia|]. split; [|exact V]. intros I0 L.
      assert (e <= 8). { destruct (Z.le_gt_cases e 8) as [X|X]; [exact X|]. exfalso. refine (Qlt_not_le _ _ L _). eapply Qle_trans; [|exact E1]. apply pow10_mono. lia. }
      assert (1 <= units_for (frac_digits a + frac_digits b + incr)). { unfold units_for. pose proof (proj1 (proj2 CA)). pose proof (proj1 (proj2 CB)). Z.to_euclidean_division_equations; lia. }
      lia.
Qed.

Lemma computing_step m st c rs d : (forall i, plain (st i)) -> computing_call m st c -> perform m st c = Ret (rs, d) ->
  plain d /\ meaning_with_division (fun i => value (st i)) c (value d).
Proof.
  intros R A H. destruct c as [k bs reset|k n|k n|k|k|i k|k|k|i j k|i j k|i j k|i j k|i j k incr|i k f|k f]; cbn [perform computing_call exact_call simple_call meaning_with_division meaning] in *.
  - destruct A as [A ->]. destruct (parse_step m (st k) bs rs d) as [P Q]; [apply R|exact A|exact H|]. split; [apply regular_plain, P|exact Q].
  - destruct (from_i64_ok m n A) as (d' & E & (W & C & T & NH & _ & V & _)). rewrite E in H. injection H as <- <-. split; [split; [|split]; assumption|exact V].
  - destruct (from_u64_ok m n A) as (d' & E & (W & C & T & NH & _ & V & _) & _). rewrite E in H. injection H as <- <-. split; [split; [|split]; assumption|exact V].
  - injection H as <- <-. split; [apply plain_zero|reflexivity].
  - injection H as <- <-. split; [apply regular_plain, regular_one|reflexivity].
  - injection H as <- <-. split; [apply R|reflexivity].
  - injection H as <- <-. split; [apply (same_plain (st k)); [apply set_neg_same, wf_intg, R|apply set_neg_wf, R|apply R]|apply value_set_neg, R].
  - injection H as <- <-. split; [apply (same_plain (st k)); [apply set_pos_same|apply set_pos_wf, R|apply R]|apply value_set_pos, R].
  - pose proof (R i) as (A1 & A2 & A3). pose proof (R j) as (B1 & B2 & B3). destruct (C22_addition_is_exact m _ _ _ rs d A1 B1 H) as (_ & W & V & _). destruct (C22_addition_keeps_shape m _ _ _ rs d A1 B1 H) as (C & _ & N).
    split; [split; [exact W|split; auto]|exact V].
  - pose proof (R i) as (A1 & A2 & A3). pose proof (R j) as (B1 & B2 & B3). destruct (C23_subtraction_is_exact m _ _ _ rs d A1 B1 H) as (_ & W & V & _). destruct (C23_subtraction_keeps_shape m _ _ _ rs d A1 B1 H) as (C & _ & N).
    split; [split; [exact W|split; auto]|exact V].
  - destruct A as (T1 & T2 & PF). pose proof (R i) as (A1 & A2 & A3). pose proof (R j) as (B1 & B2 & B3).
    assert (Ri : regular (st i)) by (repeat (split; [assumption|]); assumption). assert (Rj : regular (st j)) by (repeat (split; [assumption|]); assumption).
    split; [|eapply mul_value; [exact Ri|exact Rj|exact PF|exact H]].
    destruct (mul_overflow m _ _ _ rs d A1 B1 A2 B2 T1 T2 H) as ([->| ->] & _ & O); [|rewrite O by reflexivity; apply plain_zero]. apply regular_plain. eapply mul_regular; [exact Ri|exact Rj|exact H].
  - pose proof (R i) as (A1 & A2 & A3). pose proof (R j) as (B1 & B2 & B3). destruct (Qeq_dec (value (st j)) 0) as [Zj|Nj].
    + rewrite (rem_dbz m _ _ _ A1 B1 Zj) in H. injection H as <- <-. split; [apply plain_zero|]. split; [intros X; contradiction|reflexivity].
    + destruct (rem_to_run m _ _ _ rs d A1 B1 Nj A H) as (_ & W & C & Ti & NH & NZ & S & q & E & L). split; [split; [exact W|split; auto]|]. split; [intros _|intros X; contradiction].
      apply (truncate_remainder _ _ _ q Nj E L). destruct (Qeq_dec (value d) 0) as [V|V]; [rewrite V; lra|]. specialize (S V).
      assert (X : (value (st i) * value d == Qabs (value (st i)) * Qabs (value d))%Q).
      { transitivity ((if neg (st i) then - Qabs (value (st i)) else Qabs (value (st i))) * (if neg d then - Qabs (value d) else Qabs (value d)))%Q;
          [apply Qmult_comp; apply value_sign; assumption|]. rewrite S. destruct (neg (st i)); ring. }
      rewrite X. apply Qmult_le_0_compat; apply Qabs_nonneg.
  - destruct A as (Hi & Sn & G). exact (quotient_step m _ _ _ incr rs d (proj1 (R i)) (proj1 (R j)) Hi Sn G H).
  - apply bind_inv in H. destruct H as (d' & E & H). injection H as <- <-. pose proof (R i) as (A1 & A2 & A3).
    destruct (round_to_spec_ret m _ _ f d' A1 A (or_intror A3) E) as (W & V & _ & _ & NH & C & _). split; [split; [exact W|split; auto]|exact V].
  - apply bind_inv in H. destruct H as (d' & E & H). injection H as <- <-. destruct A as [B1 B2]. pose proof (R k) as (A1 & A2 & A3). rewrite (round_in_place m (st k) zero f) in E; [|assumption..].
    destruct (round_to_spec_ret m _ _ f d' A1 B1 (or_intror A3) E) as (W & V & _ & _ & NH & C & _). split; [split; [exact W|split; auto]|exact V].
Qed.
Lemma meaning_with_division_ext x y c v : (forall i, (x i == y i)%Q) -> meaning_with_division x c v -> meaning_with_division y c v.
Proof.
  intros E. destruct c; try exact (meaning_ext x y _ v E). cbn [meaning_with_division].
  assert (Q : (x i / x j == y i / y j)%Q) by (rewrite (E i), (E j); reflexivity).
  assert (N1 : (y j == 0)%Q -> (x j == 0)%Q) by (intros X; rewrite (E j); exact X). assert (N2 : ~ (y j == 0)%Q -> ~ (x j == 0)%Q) by (intros X Y; apply X; rewrite <- (E j); exact Y).
  intros (H1 & H2 & H3). split; [intros X; exact (H1 (N1 X))|]. split; [intros N L; apply (H2 (N2 N)); rewrite Q; exact L|].
  intros N L. destruct (H3 (N2 N)) as (f & F1 & F2 & V); [rewrite Q; exact L|]. exists f. split; [exact F1|]. split.
  - intros I0 L2. apply (F2 I0). rewrite Q. exact L2.
  - rewrite V. apply truncate_at_comp. exact Q.
Qed.
Lemma on_numbers_wd_ext cs : forall x y x', (forall i, (x i == y i)%Q) -> on_numbers_with_division x cs x' -> exists y', (forall i, (x' i == y' i)%Q) /\ on_numbers_with_division y cs y'.
Proof.
  induction cs as [|c cs IH]; intros x y x' E H; inversion H; subst.
  - exists y. split; [exact E|constructor].
  - destruct (IH (write x (target c) v) (write y (target c) v) x') as (y' & E' & H'); [intros i; unfold write; destruct (Nat.eqb i (target c)); [reflexivity|apply E]|assumption|].
    exists y'. split; [exact E'|]. econstructor; [eapply meaning_with_division_ext; eassumption|exact H'].
Qed.
Lemma plain_history m st cs st' : (forall i, plain (st i)) -> history (computing_call m) m st cs st' -> forall i, plain (st' i).
Proof.
  intros R H. induction H as [st|st c cs rs d st' A E H IH]; [exact R|]. apply IH. intros i. unfold write. destruct (Nat.eqb i (target c)); [|apply R]. exact (proj1 (computing_step m st c rs d R A E)).
Qed.

(** C102: every history of such calls leaves in each variable the number that
    the same calls give on rational numbers, quotients being truncated. *)
Theorem C102_histories_with_division : forall m cs st, history (computing_call m) m (fun _ => zero) cs st ->
  exists x, on_numbers_with_division (fun _ => 0%Q) cs x /\ forall i, (value (st i) == x i)%Q.
Proof.
  assert (G : forall m st cs st', (forall i, plain (st i)) -> history (computing_call m) m st cs st' -> exists x', on_numbers_with_division (fun i => value (st i)) cs x' /\ forall i, (value (st' i) == x' i)%Q).
  { intros m st cs st' R H. induction H as [st|st c cs rs d st' A E H IH]; [eexists; split; [constructor|reflexivity]|].
    destruct (computing_step m st c rs d R A E) as [P M].
    destruct IH as (x' & O & V). { intros i. unfold write. destruct (Nat.eqb i (target c)); [exact P|apply R]. }
    destruct (on_numbers_wd_ext cs (fun i => value (write st (target c) d i)) (write (fun i => value (st i)) (target c) (value d)) x') as (y' & E' & H').
    { intros i. unfold write. destruct (Nat.eqb i (target c)); reflexivity. } { exact O. }
    exists y'. split; [econstructor; eassumption|]. intros i. rewrite V. apply E'. }
  intros m cs st H. destruct (G m _ cs st (fun _ => plain_zero) H) as (x & O & V).
  destruct (on_numbers_wd_ext cs _ (fun _ => 0%Q) x (fun _ => Qeq_refl 0) O) as (y & E & O'). exists y. split; [exact O'|]. intros i. rewrite V. apply E.
Qed.
Print Assumptions C102_histories_with_division.
(** What can be observed afterwards is that number: by comparing, and as the
    printed string, which loses no digit. *)
Theorem C102_observations : forall m cs st, history (computing_call m) m (fun _ => zero) cs st -> forall m' i j,
  (~ negzero (st i) -> ~ negzero (st j) -> cmp m' (st i) (st j) = Ret (Qcompare (value (st i)) (value (st j)))) /\
  exists n, to_string m' (st i) (-1) = Ret (numeral_bytes n) /\ canonical n /\ (numeral_value n == value (st i))%Q.
Proof.
  intros m cs st H m' i j. pose proof (plain_history m _ cs st (fun _ => plain_zero) H) as P. pose proof (P i) as (Wi & _ & Ni). pose proof (P j) as (Wj & _). split.
  - intros Zi Zj. apply cmp_numeric_nz; assumption.
  - destruct (C08_to_string_is_exact m' (st i) Wi Ni) as (n & E & C & _ & _ & V). exists n. auto.
Qed.
Print Assumptions C102_observations.
(** A debug build: the average of three amounts, to the cent, its share of a total of twenty digits, and a division by zero. *)
Definition shares : list call :=
  [Parse 0 (bytes "1234567890123456789012.50") true; Parse 1 (bytes "-0.75") true; FromI64 2 1000000007; Add 0 1 3; Add 3 2 3;
   FromI64 4 3; Div 3 4 5 4; RoundTo 5 6 2; Div 6 0 7 4; Round 7 5; Mul 7 4 8; Sub 0 0 9; Div 6 9 9 4].
Example C102_example : exists st, history (computing_call Debug) Debug (fun _ => zero) shares st /\
  to_string Debug (st 6%nat) (-1) = Ret (bytes "411522630041485596339.58") /\
  to_string Debug (st 7%nat) (-1) = Ret (bytes "0.33333") /\ to_string Debug (st 8%nat) (-1) = Ret (bytes "0.99999") /\ to_string Debug (st 9%nat) (-1) = Ret (bytes "0").
Proof.
  eexists. split.
  - unfold shares. run_history; cbn [computing_call exact_call simple_call];
    match goal with
    | |- True => exact I
    | |- _ /\ _ /\ (_ \/ _ \/ _) => split; [discriminate|split; [vm_compute; discriminate|right; right; split; [left; vm_compute; discriminate|discriminate]]]
    | |- tight _ /\ _ => split; [vm_compute; reflexivity|split; [vm_compute; reflexivity|split; vm_compute; discriminate]]
    | |- _ /\ (_ \/ _) => split; [split; discriminate|left; vm_compute; reflexivity]
    | |- _ /\ _ = true => split; [vm_compute; discriminate|reflexivity]
    | |- _ => split; discriminate
    end.
  - repeat split; vm_compute; reflexivity.
Qed.
