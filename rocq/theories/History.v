(** * Histories keep decimals regular, and compute exactly. *)
From Coq Require Import ZArith List Bool Lia QArith Qabs Qround Lqa.
From Coq Require Import ZifyBool ZifyNat.
From Verif Require Import Rust Model_Base Model_Cmp Model_Round Model_Decimal Model_Arith Model_Serde Spec Spec_Div Spec_History DivG2 Lib Cmp AddSub Sign AddTo AddSubQ Basics QLib Round RoundTo RoundQ Conv ParseMain ParseThms
  MulAbs MulQ MulLaws DivBasics DivQ Rem4 Rem5 Witness.
Import ListNotations.
Open Scope Z_scope.

Lemma floor_is (y : Q) (q : Z) : (inject_Z q <= y)%Q -> (y < inject_Z (q + 1))%Q -> Qfloor y = q.
Proof.
  intros A B. pose proof (Qfloor_le y) as L. pose proof (Qlt_floor y) as U.
  assert (X : (inject_Z q < inject_Z (Qfloor y + 1))%Q) by (eapply Qle_lt_trans; eassumption).
  assert (Y : (inject_Z (Qfloor y) < inject_Z (q + 1))%Q) by (eapply Qle_lt_trans; eassumption).
  rewrite <- Zlt_Qlt in X, Y. lia.
Qed.
Lemma truncate_is (y e : Q) (q : Z) : (y == inject_Z q + e)%Q -> (-(1) < e)%Q -> (e < 1)%Q -> (0 <= y * e)%Q -> truncate y = q.
Proof.
  intros E L U S. unfold truncate. destruct (Qle_bool 0 y) eqn:Y.
  - apply Qle_bool_iff in Y. destruct (Qlt_le_dec e 0) as [N|N].
    + exfalso. assert (y == 0)%Q. { destruct (Qlt_le_dec 0 y) as [P|P]; [exfalso; nra|lra]. }
      assert (0 < inject_Z q)%Q by lra. assert (inject_Z q < 1)%Q by lra. change 0%Q with (inject_Z 0) in *. change 1%Q with (inject_Z 1) in *. rewrite <- Zlt_Qlt in *. lia.
    + apply floor_is; [lra|rewrite inject_Z_plus; change (inject_Z 1) with 1%Q; lra].
  - assert (N : (y < 0)%Q). { destruct (Qlt_le_dec y 0) as [X|X]; [exact X|]. apply Qle_bool_iff in X. congruence. }
    assert (e <= 0)%Q by (destruct (Qlt_le_dec 0 e); [nra|assumption]).
    rewrite (floor_is (- y) (- q)); [lia| |]; rewrite ?inject_Z_plus, inject_Z_opp; change (inject_Z 1) with 1%Q; lra.
Qed.
Lemma truncate_remainder (a b d : Q) (q : Z) : ~ (b == 0)%Q -> (a == b * inject_Z q + d)%Q -> (Qabs d < Qabs b)%Q -> (0 <= a * d)%Q -> (d == a - b * inject_Z (truncate (a / b)))%Q.
Proof.
  intros B E L S. assert (ET : truncate (a / b) = q).
  { assert (LE : (Qabs (d / b) < 1)%Q).
    { unfold Qdiv. rewrite Qabs_Qmult, Qabs_Qinv. assert (P : (0 < Qabs b)%Q) by (eapply Qle_lt_trans; [apply Qabs_nonneg|exact L]).
      apply (Qmult_lt_r _ _ (Qabs b) P). rewrite <- Qmult_assoc, (Qmult_comm (/ _)), Qmult_inv_r by (intros X; rewrite X in P; discriminate P). lra. }
    apply (truncate_is _ (d / b)).
    - rewrite E. field. exact B.
    - apply Qabs_Qlt_condition in LE. apply LE.
    - apply Qabs_Qlt_condition in LE. apply LE.
    - setoid_replace (a / b * (d / b))%Q with (a * d * (/ b * / b))%Q by (field; exact B). apply Qmult_le_0_compat; [exact S|].
      destruct (Qlt_le_dec 0 (/ b)) as [P|P]; [|setoid_replace (/ b * / b)%Q with ((- / b) * (- / b))%Q by ring]; apply Qmult_le_0_compat; lra. }
  rewrite ET, E. ring.
Qed.
Lemma rem_meaning m a b res rs d : regular a -> regular b -> guesses_right (scaled a) (scaled b) -> rem_to m a b res = Ret (rs, d) ->
  regular d /\ (~ (value b == 0) -> value d == value a - value b * inject_Z (truncate (value a / value b)))%Q /\ ((value b == 0)%Q -> (value d == 0)%Q).
Proof.
  intros (A1 & A2 & A3 & A4) (B1 & B2 & B3 & B4) T H. destruct (Qeq_dec (value b) 0) as [Z|N].
  - rewrite (rem_dbz m a b res A1 B1 Z) in H. injection H as <- <-. split; [apply regular_zero|]. split; [intros X; contradiction|]. intros _. reflexivity.
  - destruct (rem_to_run m a b res rs d A1 B1 N T H) as (_ & W & C & Ti & NH & NZ & S & q & E & L). split; [rg; auto|]. split; [intros _|intros X; contradiction].
    apply (truncate_remainder _ _ _ q N E L). destruct (Qeq_dec (value d) 0) as [V|V]; [rewrite V; lra|]. specialize (S V).
    assert (X : (value a * value d == Qabs (value a) * Qabs (value d))%Q).
    { transitivity ((if neg a then - Qabs (value a) else Qabs (value a)) * (if neg d then - Qabs (value d) else Qabs (value d)))%Q;
        [apply Qmult_comp; apply value_sign; assumption|]. rewrite S. destruct (neg a); ring. }
    rewrite X. apply Qmult_le_0_compat; apply Qabs_nonneg.
Qed.

(** ** One call *)
Lemma parse_step m t bs rs d : wf t -> mantissa_digits bs <= 127 -> from_bytes_str m t bs true = Ret (rs, d) ->
  regular d /\ ((exists n, numeral_ok n /\ within_limits n /\ bs = numeral_bytes n /\ (value d == numeral_value n)%Q) \/
                ((forall n, numeral_ok n -> within_limits n -> bs <> numeral_bytes n) /\ (value d == 0)%Q)).
Proof.
  intros W MD H. destruct (parse_cases m t true bs W MD) as [(n & d' & EB & OK & WL & E & PD)|(N & [E|(_ & _ & E)])]; rewrite E in H; try discriminate H; injection H as <- <-.
  - assert (C : clean d') by (eapply parsed_clean; [exact PD|]; intros k _; apply zero_units_0). destruct PD as [PW PV PN PF _ PT PH _].
    split; [rg; assumption|]. left. exists n. auto.
  - split; [apply regular_zero|]. right. split; [intros n A B X; apply (N n A B); symmetry; exact X|reflexivity].
Qed.
Lemma round_to_regular m a res f d : regular a -> -9223372036854775807 < f <= 127 -> round_to m a res f = Ret d -> regular d.
Proof.
  intros (A1 & A2 & A3 & A4) F H. destruct (Z.lt_ge_cases f 0) as [G|G].
  - destruct (Z.lt_ge_cases (- f) (int_digits a)) as [I|I].
    + destruct (round_to_neg_spec m a res f A1 G I) as [(d' & E & (W & _ & _ & C & _) & NH & T & _)|(E & _)]; rewrite E in H; [|discriminate H]. injection H as <-. rg; auto.
    + destruct (round_to_high m a res f A1 ltac:(lia) I) as (E & _). rewrite E in H. injection H as <-. apply regular_zero.
  - destruct (round_to_spec_ret m a res f d A1 ltac:(lia) (or_intror A4) H) as (W & _ & _ & _ & NH & C & T). rg; auto.
Qed.
Lemma same_regular d d' : same_digits d d' -> wf d' -> regular d -> regular d'.
Proof. intros S W (A & B & C & D). rg; eauto using same_clean, same_tight, same_nohidden. Qed.
Lemma regular_one : regular one.
Proof. rg; hyps. Qed.

Lemma careful_step m st c rs d : (forall i, regular (st i)) -> careful_call st c -> perform m st c = Ret (rs, d) -> regular d.
Proof.
  intros R A H. destruct c as [k bs reset|k n|k n|k|k|i k|k|k|i j k|i j k|i j k|i j k|i j k incr|i k f|k f]; cbn [perform careful_call simple_call] in *.
  - destruct A as [A ->]. apply (parse_step m (st k) bs rs d); [apply R|exact A|exact H].
  - destruct (from_i64_ok m n A) as (d' & E & (W & C & T & NH & _)). rewrite E in H. injection H as <- <-. rg; assumption.
  - destruct (from_u64_ok m n A) as (d' & E & (W & C & T & NH & _) & _). rewrite E in H. injection H as <- <-. rg; assumption.
  - injection H as <- <-. apply regular_zero.
  - injection H as <- <-. apply regular_one.
  - injection H as <- <-. apply R.
  - injection H as <- <-. apply (same_regular (st k)); [apply set_neg_same, wf_intg, R|apply set_neg_wf, R|apply R].
  - injection H as <- <-. apply (same_regular (st k)); [apply set_pos_same|apply set_pos_wf, R|apply R].
  - assert (rs = Ok tt) as -> by (eapply add_exact; [apply (R i)|apply (R j)|exact H]). eapply add_regular; [apply (R i)|apply (R j)|exact H].
  - assert (rs = Ok tt) as -> by (eapply sub_exact; [apply (R i)|apply (R j)|exact H]). eapply sub_regular; [apply (R i)|apply (R j)|exact H].
  - pose proof (R i) as (A1 & A2 & A3 & A4). pose proof (R j) as (B1 & B2 & B3 & B4).
    destruct (mul_overflow m _ _ _ rs d A1 B1 A2 B2 A3 B3 H) as ([->| ->] & _ & O); [|rewrite O by reflexivity; apply regular_zero].
    eapply mul_regular; [apply (R i)|apply (R j)|exact H].
  - eapply rem_meaning; [apply (R i)|apply (R j)|exact A|exact H].
  - pose proof (R i) as (A1 & _). pose proof (R j) as (B1 & _).
    destruct (Qeq_dec (value (st j)) 0) as [Zj|Zj]; [rewrite (div_dbz m _ _ _ incr A1 B1 Zj) in H; injection H as <- <-; apply regular_zero|].
    destruct (Qeq_dec (value (st i)) 0) as [Zi|Zi]; [rewrite (div_to_zero m _ _ _ incr A1 B1 Zi Zj) in H; injection H as <- <-; apply regular_zero|].
    destruct A as [A|[A|(S2 & I & Rm & p & q & Lp & Lq & Hpq)]]; [contradiction..|].
    destruct (div_to_run_gen m _ _ _ incr rs d A1 B1 Zi Zj I Rm (long_good_release _ _ _ A1 B1 S2) H) as (e & _ & _ & [(_ & _ & ->)|(_ & _ & W & C & N & NZ & _ & _ & _ & _ & _ & T)]); [apply regular_zero|].
    rg; eauto.
  - apply bind_inv in H. destruct H as (d' & E & H). injection H as <- <-. eapply round_to_regular; [apply (R i)|exact A|exact E].
  - apply bind_inv in H. destruct H as (d' & E & H). injection H as <- <-. destruct A as [A1 A2]. rewrite (round_in_place m (st k) zero f) in E; [|apply R|apply R|exact A2].
    eapply round_to_regular; [apply (R k)|exact A1|exact E].
Qed.
Lemma simple_careful st c : simple_call st c -> careful_call st c.
Proof. destruct c; cbn; auto; contradiction. Qed.

Lemma write_regular (st : state) k d : (forall i, regular (st i)) -> regular d -> forall i, regular (write st k d i).
Proof. intros R D i. unfold write. destruct (Nat.eqb i k); auto. Qed.

Lemma history_regular (P : state -> call -> Prop) m st cs st' : (forall st c, P st c -> careful_call st c) -> (forall i, regular (st i)) -> history P m st cs st' -> forall i, regular (st' i).
Proof.
  intros HP R H. induction H as [st|st c cs rs d st' A E H IH]; [exact R|]. apply IH. apply write_regular; [exact R|]. eapply careful_step; eauto.
Qed.

(** ** Exactness *)
Lemma exact_careful st c : exact_call st c -> careful_call st c.
Proof. destruct c; cbn; auto; try contradiction; lia. Qed.
Lemma exact_step m st c rs d : (forall i, regular (st i)) -> exact_call st c -> perform m st c = Ret (rs, d) -> meaning (fun i => value (st i)) c (value d).
Proof.
  intros R A H. destruct c as [k bs reset|k n|k n|k|k|i k|k|k|i j k|i j k|i j k|i j k|i j k incr|i k f|k f]; cbn [perform exact_call simple_call meaning] in *.
  - destruct A as [A ->]. apply (parse_step m (st k) bs rs d); [apply R|exact A|exact H].
  - destruct (from_i64_ok m n A) as (d' & E & (_ & _ & _ & _ & _ & V & _)). rewrite E in H. injection H as <- <-. exact V.
  - destruct (from_u64_ok m n A) as (d' & E & (_ & _ & _ & _ & _ & V & _) & _). rewrite E in H. injection H as <- <-. exact V.
  - injection H as <- <-. reflexivity.
  - injection H as <- <-. reflexivity.
  - injection H as <- <-. reflexivity.
  - injection H as <- <-. apply value_set_neg, R.
  - injection H as <- <-. apply value_set_pos, R.
  - eapply add_exact; [apply (R i)|apply (R j)|exact H].
  - eapply sub_exact; [apply (R i)|apply (R j)|exact H].
  - eapply mul_value; [apply (R i)|apply (R j)|exact A|exact H].
  - destruct (rem_meaning m _ _ _ rs d (R i) (R j) A H) as (_ & M). exact M.
  - contradiction.
  - apply bind_inv in H. destruct H as (d' & E & H). injection H as <- <-. pose proof (R i) as (A1 & A2 & A3 & A4). eapply round_to_spec_ret; [exact A1|exact A|right; exact A4|exact E].
  - apply bind_inv in H. destruct H as (d' & E & H). injection H as <- <-. destruct A as [B1 B2]. rewrite (round_in_place m (st k) zero f) in E; [|apply R|apply R|exact B2].
    pose proof (R k) as (A1 & A2 & A3 & A4). eapply round_to_spec_ret; [exact A1|exact B1|right; exact A4|exact E].
Qed.

Lemma meaning_ext x y c v : (forall i, (x i == y i)%Q) -> meaning x c v -> meaning y c v.
Proof.
  intros E. destruct c as [k bs reset|k n|k n|k|k|i k|k|k|i j k|i j k|i j k|i j k|i j k incr|i k f|k f]; cbn [meaning]; auto; intros H.
  1-6: try (rewrite H); rewrite <- ?(E i), <- ?(E j), <- ?(E k); try reflexivity.
  - destruct H as [H1 H2]. split; intros N; rewrite <- (E j) in N; [rewrite (H1 N)|exact (H2 N)].
    rewrite (truncate_comp (x i / x j) (y i / y j)) by (rewrite (E i), (E j); reflexivity). rewrite (E i), (E j). reflexivity.
  - rewrite H. unfold round_at. rewrite (round_away_comp (x i * pow10 f) (y i * pow10 f)); [reflexivity|]. rewrite (E i). reflexivity.
  - rewrite H. unfold round_at. rewrite (round_away_comp (x k * pow10 f) (y k * pow10 f)); [reflexivity|]. rewrite (E k). reflexivity.
Qed.
Lemma on_numbers_ext cs : forall x y x', (forall i, (x i == y i)%Q) -> on_numbers x cs x' -> exists y', (forall i, (x' i == y' i)%Q) /\ on_numbers y cs y'.
Proof.
  induction cs as [|c cs IH]; intros x y x' E H; inversion H; subst.
  - exists y. split; [exact E|constructor].
  - destruct (IH (write x (target c) v) (write y (target c) v) x') as (y' & E' & H'); [intros i; unfold write; destruct (Nat.eqb i (target c)); [reflexivity|apply E]|assumption|].
    exists y'. split; [exact E'|]. econstructor; [eapply meaning_ext; eassumption|exact H'].
Qed.
Lemma history_exact m st cs st' : (forall i, regular (st i)) -> history exact_call m st cs st' ->
  exists x', on_numbers (fun i => value (st i)) cs x' /\ forall i, (value (st' i) == x' i)%Q.
Proof.
  intros R H. induction H as [st|st c cs rs d st' A E H IH]; [eexists; split; [constructor|reflexivity]|].
  pose proof (exact_step m st c rs d R A E) as M.
  destruct IH as (x' & O & V). { apply write_regular; [exact R|]. eapply careful_step; [exact R|apply exact_careful; exact A|exact E]. }
  destruct (on_numbers_ext cs (fun i => value (write st (target c) d i)) (write (fun i => value (st i)) (target c) (value d)) x') as (y' & E' & H').
  { intros i. unfold write. destruct (Nat.eqb i (target c)); reflexivity. } { exact O. }
  exists y'. split; [econstructor; eassumption|]. intros i. rewrite V. apply E'.
Qed.

(** The history on numbers has one result. *)
Lemma numeral_unique n n' : numeral_ok n -> within_limits n -> numeral_ok n' -> within_limits n' -> numeral_bytes n = numeral_bytes n' -> (numeral_value n == numeral_value n')%Q.
Proof.
  intros A B A' B' E. destruct (parse_accepts Release zero true n wf_zero A B) as (d & D & P). destruct (parse_accepts Release zero true n' wf_zero A' B') as (d' & D' & P').
  rewrite E, D' in D. injection D as ->. rewrite <- (p_value _ _ _ P), <- (p_value _ _ _ P'). reflexivity.
Qed.
Lemma meaning_unique x y c v w : (forall i, (x i == y i)%Q) -> meaning x c v -> meaning y c w -> (v == w)%Q.
Proof.
  intros E H G. apply (meaning_ext x y c v E) in H. clear E x. destruct c as [k bs reset|k n|k n|k|k|i k|k|k|i j k|i j k|i j k|i j k|i j k incr|i k f|k f]; cbn [meaning] in *; try (rewrite H, G; reflexivity); try contradiction.
  - destruct H as [(n & A & B & C & V)|[N V]], G as [(n' & A' & B' & C' & V')|[N' V']].
    + rewrite V, V'. apply numeral_unique; auto. congruence.
    + exfalso. exact (N' n A B C).
    + exfalso. exact (N n' A' B' C').
    + rewrite V, V'. reflexivity.
  - destruct (Qeq_dec (y j) 0) as [Z|Z]; [rewrite (proj2 H Z), (proj2 G Z); reflexivity|]. rewrite (proj1 H Z), (proj1 G Z). reflexivity.
Qed.
Lemma on_numbers_unique cs : forall x y x' y', (forall i, (x i == y i)%Q) -> on_numbers x cs x' -> on_numbers y cs y' -> forall i, (x' i == y' i)%Q.
Proof.
  induction cs as [|c cs IH]; intros x y x' y' E H G; inversion H; inversion G; subst; [exact E|].
  eapply IH; [|eassumption|eassumption]. intros i. unfold write. destruct (Nat.eqb i (target c)); [|apply E]. eapply meaning_unique; eassumption.
Qed.
