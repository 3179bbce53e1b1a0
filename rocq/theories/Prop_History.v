(** * Properties: histories of calls (C43, C44, C54, C55). *)
From Coq Require Import ZArith List Bool String Lia QArith Qabs.
From Verif Require Import Rust Model_Base Model_Cmp Model_Round Model_Decimal Model_Arith Model_Serde Spec Spec_History Lib Cmp Sign Basics QLib AddSubQ MulLaws Rem4 Prop_Div Prop_Rem History Tests Witness.
Import ListNotations.
Open Scope Z_scope.

(** C43: whatever sequence of calls is made - of any length, on any number of
    variables - every variable holds a regular decimal afterwards. *)
Theorem C43_histories_keep_values_regular : forall m st cs st', (forall i, regular (st i)) ->
  history simple_call m st cs st' -> forall i, regular (st' i).
Proof. intros m st cs st' R H. apply (history_regular simple_call m st cs st' simple_careful R H). Qed.
Print Assumptions C43_histories_keep_values_regular.
(** In particular if all variables start out as zero. *)
Theorem C43_from_zero : forall m cs st, history simple_call m (fun _ => zero) cs st -> forall i, regular (st i).
Proof. intros m cs st H. eapply C43_histories_keep_values_regular; [|exact H]. intros i. apply regular_zero. Qed.
Print Assumptions C43_from_zero.
(** Two consequences for the values of a history: the comparison is that of
    the numbers (except between zeroes of different sign), sums and differences are exact. *)
Theorem C43_values_are_operands : forall m st cs st', (forall i, regular (st i)) -> history simple_call m st cs st' ->
  forall m' i j res, (~ (value (st' i) == 0)%Q \/ ~ (value (st' j) == 0)%Q -> cmp m' (st' i) (st' j) = Ret (Qcompare (value (st' i)) (value (st' j)))) /\
  (forall rs d, add_to m' (st' i) (st' j) res = Ret (rs, d) -> rs = Ok tt /\ (value d == value (st' i) + value (st' j))%Q) /\
  (forall rs d, sub_to m' (st' i) (st' j) res = Ret (rs, d) -> rs = Ok tt /\ (value d == value (st' i) - value (st' j))%Q).
Proof.
  intros m st cs st' R H m' i j res. pose proof (C43_histories_keep_values_regular m st cs st' R H) as R'. pose proof (R' i) as (A & _). pose proof (R' j) as (B & _). split; [|split].
  - intros N. rewrite (cmp_numeric m' _ _ A B). destruct (Qcompare (value (st' i)) (value (st' j))) eqn:E; try reflexivity. apply Qeq_alt in E.
    assert (Na : ~ (value (st' i) == 0)%Q) by (destruct N as [N|N]; [exact N|rewrite E; exact N]).
    destruct (neg (st' i)) eqn:N1, (neg (st' j)) eqn:N2; try reflexivity; exfalso; apply Na.
    + apply (Qle_antisym _ _ (neg_le _ A N1)). rewrite E. apply (pos_ge _ B N2).
    + apply Qle_antisym; [|apply (pos_ge _ A N1)]. rewrite E. apply (neg_le _ B N2).
  - intros rs d X. destruct (add_exact m' _ _ res rs d A B X) as (E & _ & V & _). auto.
  - intros rs d X. destruct (sub_exact m' _ _ res rs d A B X) as (E & _ & V & _). auto.
Qed.
Print Assumptions C43_values_are_operands.

(** A history of twelve calls, one of them an error. *)
Definition sample : list call :=
  [Parse 0 (bytes "-123456789012.000000000125") true; FromI64 1 (-9223372036854775808); Mul 0 1 2; Sub 2 0 3; RoundTo 3 4 3;
   Parse 5 (bytes "12x") true; One 6; Add 6 6 7; SetNeg 7; Rem 3 7 8; Copy 8 0; Parse 9 (bytes "2.5e1") true].
Ltac run_history := repeat match goal with
  | |- history _ _ _ (_ :: _) _ => eapply h_cons; [|vm_compute; reflexivity|]
  | |- history _ _ _ [] _ => apply h_nil
  end.
Ltac small_divisor := apply (guesses_decide _ _ 10 12); [lia|split; vm_compute; (discriminate || reflexivity)|vm_compute; reflexivity|vm_compute; reflexivity].
Ltac call_ok := cbn [simple_call exact_call careful_call]; first [exact I|lia|small_divisor|split; [vm_compute; discriminate|reflexivity]|(split; vm_compute; discriminate)|idtac].
Example C43_example : exists st, history simple_call Debug (fun _ => zero) sample st /\ to_string Debug (st 0%nat) (-1) = Ret (bytes "0.606846976125").
Proof. eexists. split; [unfold sample; run_history; call_ok|]. vm_compute. reflexivity. Qed.

(** C54: every history of exact calls leaves in each variable the number that
    the same calls give on rational numbers. *)
Theorem C54_histories_are_exact : forall m st cs st', (forall i, regular (st i)) -> history exact_call m st cs st' ->
  exists x', on_numbers (fun i => value (st i)) cs x' /\ forall i, (value (st' i) == x' i)%Q.
Proof. exact history_exact. Qed.
Print Assumptions C54_histories_are_exact.
(** The result on numbers is unique, so nothing is left to chance. *)
Theorem C54_numbers_are_determined : forall x y cs x' y', (forall i, (x i == y i)%Q) -> on_numbers x cs x' -> on_numbers y cs y' -> forall i, (x' i == y' i)%Q.
Proof. intros. eapply on_numbers_unique; eassumption. Qed.
Print Assumptions C54_numbers_are_determined.
Example C54_example : exists st, history exact_call Debug (fun _ => zero) (sample ++ [Round 0 3; Mul 0 9 1])%list st /\
   to_string Debug (st 1%nat) (-1) = Ret (bytes "15.175").
Proof.
  eexists. split.
  - unfold sample. cbn [app]. run_history; call_ok; try (split; [vm_compute; split; discriminate|left; vm_compute; reflexivity]).
  - vm_compute. reflexivity.
Qed.

(** C55: only the numbers matter. The same calls on variables that hold the
    same numbers - with other digit counts, in another build - leave the same numbers, and decimals that
    are == unless one is a negative zero. *)
Theorem C55_only_numbers_matter : forall m1 m2 s1 s2 cs s1' s2', (forall i, regular (s1 i)) -> (forall i, regular (s2 i)) ->
  (forall i, (value (s1 i) == value (s2 i))%Q) -> history exact_call m1 s1 cs s1' -> history exact_call m2 s2 cs s2' ->
  forall i, (value (s1' i) == value (s2' i))%Q /\ (~ negzero (s1' i) -> ~ negzero (s2' i) -> forall m, eq m (s1' i) (s2' i) = Ret true).
Proof.
  intros m1 m2 s1 s2 cs s1' s2' R1 R2 E H1 H2 i.
  destruct (history_exact m1 s1 cs s1' R1 H1) as (x & X & VX). destruct (history_exact m2 s2 cs s2' R2 H2) as (y & Y & VY).
  assert (V : (value (s1' i) == value (s2' i))%Q) by (rewrite VX, VY; eapply on_numbers_unique; [|exact X|exact Y]; exact E).
  split; [exact V|]. intros N1 N2 m. apply eq_of_value; auto; [apply (history_regular exact_call m1 s1 cs s1' exact_careful R1 H1)|apply (history_regular exact_call m2 s2 cs s2' exact_careful R2 H2)].
Qed.
Print Assumptions C55_only_numbers_matter.
Example C55_example : let s1 := write (fun _ => zero) 1 (dec "2.50") in let s2 := write (fun _ => mkfd 0 3 zero_units) 1 (dec "0000000000002.5") in
  let cs := [Add 1 1 2; Mul 2 1 3; RoundTo 3 4 1] in
  (forall i, regular (s1 i)) /\ (forall i, regular (s2 i)) /\ (forall i, (value (s1 i) == value (s2 i))%Q) /\
  exists s1' s2', history exact_call Debug s1 cs s1' /\ history exact_call Release s2 cs s2' /\ s1' 3%nat <> s2' 3%nat /\ (value (s1' 3%nat) == 25 # 2)%Q.
Proof.
  intros s1 s2 cs. split; [|split; [|split]].
  - intros i. unfold s1, write. destruct (Nat.eqb i 1); hyps.
  - intros i. unfold s2, write. destruct (Nat.eqb i 1); hyps.
  - intros i. unfold s1, s2, write. destruct (Nat.eqb i 1); vm_compute; reflexivity.
  - do 2 eexists. split; [unfold cs; run_history; call_ok|]. split; [unfold cs; run_history; call_ok|]. split; [vm_compute; discriminate|vm_compute; reflexivity].
Qed.

(** C44 is false. Division can leave a unit of 10^9 or more (release build),
    or a decimal with fewer digits declared than stored; in-place rounding and parsing without reset leave
    digits beyond the declared ones. *)
Definition any_call (st : state) (c : call) : Prop := True.
Theorem C44_histories_with_division_refuted :
  (exists cs st, history any_call Release (fun _ => zero) cs st /\ ~ wf (st 2%nat)) /\
  (forall m, exists cs st, history any_call m (fun _ => zero) cs st /\ wf (st 2%nat) /\ ~ tight (st 2%nat)) /\
  (forall m, exists cs st, history any_call m (fun _ => zero) cs st /\ wf (st 0%nat) /\ ~ nohidden (st 0%nat)) /\
  (forall m, exists cs st, history any_call m (fun _ => zero) cs st /\ wf (st 0%nat) /\ ~ clean (st 0%nat)).
Proof.
  split; [|split; [|split]].
  - exists [Parse 0 (bytes "999999999000000002") true; Parse 1 (bytes "1.000000000000000001") true; Div 0 1 2 4]. eexists.
    split; [run_history; exact I|]. intros W. apply wf_units in W. inversion W as [|? ? H ?]. destruct H as [_ H]. vm_compute in H. discriminate H.
  - intros m. exists [Parse 0 (bytes "5000000000") true; Parse 1 (bytes "10") true; Div 0 1 2 4]. destruct m; eexists; (split; [run_history; exact I|split; [hyps|intros T; vm_compute in T; discriminate T]]).
  - intros m. exists [Parse 0 (bytes "1.25") true; Round 0 10]. destruct m; eexists; (split; [run_history; exact I|split; [hyps|intros T; vm_compute in T; discriminate T]]).
  - intros m. exists [Parse 0 (bytes "1234567890123") true; Parse 0 (bytes "1") false]. destruct m; eexists; (split; [run_history; exact I|split; [hyps|intros T; vm_compute in T]]);
     (inversion T as [|? ? X]; subst; discriminate X).
Qed.
Print Assumptions C44_histories_with_division_refuted.
(** What holds: with the divisions and in-place roundings of [careful_call]. *)
Theorem C44_careful_histories_partial : forall m st cs st', (forall i, regular (st i)) ->
  history careful_call m st cs st' -> forall i, regular (st' i).
Proof. intros m st cs st' R H. apply (history_regular careful_call m st cs st' (fun _ _ X => X) R H). Qed.
Print Assumptions C44_careful_histories_partial.
Example C44_example : exists st, history careful_call Debug (fun _ => zero) [Parse 0 (bytes "5000000000") true; Parse 1 (bytes "1.25") true; Div 0 1 2 4; Round 2 1; Zero 3; Div 2 3 4 4; Div 3 2 4 4] st /\
  to_string Debug (st 2%nat) (-1) = Ret (bytes "4000000000.0").
Proof.
  eexists. split.
  - run_history; cbn [careful_call simple_call]; try exact I; try (split; [vm_compute; discriminate|reflexivity]).
    + right. right. split; [left; sigu 1250000000 0|]. split; [lia|]. split; [hyps|]. exists 9, 0. hyps.
    + split; [split; [reflexivity|vm_compute; discriminate]|left; vm_compute; reflexivity].
    + right. left. reflexivity.
    + left. reflexivity.
  - vm_compute. reflexivity.
Qed.
