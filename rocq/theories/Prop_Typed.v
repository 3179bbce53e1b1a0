(** * Property C104: statically sized programs never fail and are exact. *)
From Coq Require Import ZArith List Bool String Lia QArith Qabs Lqa.
From Verif Require Import Rust Model_Base Model_Cmp Model_Round Model_Decimal Model_Arith Model_Serde Spec Spec_Machine Spec_History Spec_Ledger Spec_Typed Lib Cmp AddSub Sign AddTo AddSubQ Basics QLib Round RoundTo RoundQ Conv
  ParseMain ParseThms MulAbs MulQ MulLaws Laws History Prop_AddSub Prop_Print Prop_Exact Prop_History Prop_Ledger Tests Witness.
Import ListNotations.
Open Scope Z_scope.

Lemma pow9_cases I n : 0 <= I -> 0 <= n < 10 ^ (9 * I) -> n < 10 ^ 27 -> exists k : nat, n < base ^ Z.of_nat k /\ (k <= 3)%nat /\ Z.of_nat k <= I.
Proof.
  intros HI H L. destruct (Z.lt_ge_cases I 3) as [X|X].
  - exists (Z.to_nat I). rewrite Z2Nat.id by lia. split; [|split; lia]. change base with (10 ^ 9). rewrite <- Z.pow_mul_r by lia. exact (proj2 H).
  - exists 3%nat. split; [exact L|]. split; lia.
Qed.
Lemma from_u64_size m I n d : 0 <= I -> 0 <= n <= 18446744073709551615 -> n < 10 ^ (9 * I) -> from_u64 m n = Ret d -> int_digits d <= 9 * I.
Proof.
  intros HI Hn B H. destruct (pow9_cases I n HI (conj (proj1 Hn) B)) as (k & K1 & K2 & K3).
  { eapply Z.le_lt_trans; [apply Hn|]. reflexivity. }
  unfold from_u64 in H. apply bind_inv in H. destruct H as ([l i] & E & H). injection H as <-.
  apply (from_u64_loop_units m 10 k) in E; [|exact (conj (proj1 Hn) K1)].
  assert (X : i = 0 \/ i = 1 \/ i = 2 \/ i = 3) by (clear - K2 E; lia). eapply Z.le_trans; [|apply (Z.mul_le_mono_nonneg_l i I 9); [lia|clear - E K3; lia]].
  destruct X as [->|[->|[->| ->]]]; vm_compute; discriminate.
Qed.
Lemma from_i64_size m I n d : 0 <= I -> -9223372036854775808 <= n <= 9223372036854775807 -> Z.abs n < 10 ^ (9 * I) -> from_i64 m n = Ret d -> int_digits d <= 9 * I.
Proof.
  intros HI Hn B H. destruct (Z.eq_dec n (-9223372036854775808)) as [E|Nn].
  - assert (X : 3 <= I). { destruct (Z.le_gt_cases 3 I) as [|G]; [assumption|]. exfalso. subst n. assert (10 ^ (9 * I) <= 10 ^ 18) by (apply Z.pow_le_mono_r; lia). revert B H0. generalize (10 ^ (9 * I)). intros z B H0. change (10 ^ 18) with 1000000000000000000 in H0. change (Z.abs (-9223372036854775808)) with 9223372036854775808 in B. lia. }
    pose proof (from_i64_units3 m n d Hn H) as Y. clear - X Y. lia.
  - unfold from_i64 in H. destruct (Z.eqb_spec n (-9223372036854775808)) as [?|_]; [contradiction|].
    destruct (Z.ltb_spec n 0).
    + rewrite i64_ok in H by lia. rewrite bind_Ret in H. cbv beta in H. rewrite as_usize_id in H by lia. apply bind_inv in H. destruct H as (d' & E & H). injection H as <-.
      destruct (from_u64_ok m (- n) ltac:(lia)) as (d2 & E2 & (W & _) & _). assert (d2 = d') as -> by congruence.
      rewrite (proj1 (set_neg_same d' (wf_intg d' W))). apply (from_u64_size m I (- n)); [exact HI|lia|rewrite Z.abs_neq in B by lia; exact B|exact E].
    + rewrite as_usize_id in H by lia. apply (from_u64_size m I n); [exact HI|lia|rewrite Z.abs_eq in B by lia; exact B|exact H].
Qed.

(** ** One call *)
Definition within (I F : Z) (d : fd) : Prop := iu d <= I /\ fu d <= F.
Lemma within_digits I F d : wf d -> int_digits d <= 9 * I -> frac_digits d <= 9 * F -> within I F d.
Proof. intros W A B. pose proof (wf_counts d W) as C. unfold within, iu, fu, units_for. Z.to_euclidean_division_equations; lia. Qed.
Definition prepared (I F : nat -> Z) (st : state) : Prop := forall i, regular (st i) /\ within (I i) (F i) (st i).

Lemma product_size I F st i j k : sizes_ok I F -> prepared I F st -> I i + I j <= I k -> F i + F j <= F k -> F i + F j <= 4 ->
  product_fits (st i) (st j) /\ units_for (int_digits (st i) + int_digits (st j)) <= I k /\ units_for (frac_digits (st i) + frac_digits (st j)) <= F k /\
  product_lost_units (st i) (st j) <= 1 /\ (product_lost_units (st i) (st j) = 1 -> 1 <= fu (st i)).
Proof.
  intros SO R HI HF H4. destruct (R i) as [(Wi & _) Zi]. destruct (R j) as [(Wj & _) Zj]. destruct (SO k) as (K1 & K2 & K3). unfold within in Zi, Zj.
  pose proof (wf_counts _ Wi) as CI. pose proof (wf_counts _ Wj) as CJ. clear - CI CJ Zi Zj HI HF H4 K1 K2 K3. unfold product_fits, product_lost_units, product_frac_units, product_int_units, iu, fu in *.
  set (x := int_digits (st i)) in *. set (y := int_digits (st j)) in *. set (u := frac_digits (st i)) in *. set (v := frac_digits (st j)) in *. clearbody x y u v.
  assert (A : units_for (x + y) <= units_for x + units_for y) by (clear; unfold units_for; Z.to_euclidean_division_equations; lia).
  assert (B : units_for u + units_for v - 1 <= units_for (u + v) <= units_for u + units_for v) by (clear; unfold units_for; Z.to_euclidean_division_equations; lia).
  assert (C : units_for (u + v) = units_for u + units_for v - 1 -> 1 <= units_for u) by (clear - CI CJ; unfold units_for; Z.to_euclidean_division_equations; lia).
  lia.
Qed.
Lemma sized_exact I F st c : sizes_ok I F -> prepared I F st -> sized_call I F c -> exact_call st c.
Proof.
  intros SO R A. destruct c as [k bs reset|k n|k n|k|k|i k|k|k|i j k|i j k|i j k|i j k|i j k incr|i k f|k f]; cbn [sized_call exact_call simple_call] in *; try exact Logic.I; try contradiction.
  - destruct A as (-> & n & OK & -> & _ & A1 & _). split; [|reflexivity]. rewrite numeral_mantissa_digits by exact OK. unfold numeral_digits in A1. lia.
  - apply A.
  - apply A.
  - destruct A as (A1 & A2 & A3). exact (proj1 (product_size I F st i j k SO R A1 A2 A3)).
  - specialize (SO k). lia.
Qed.
Lemma units_round f F : 0 <= f <= 9 * F -> units_for f <= F.
Proof. intros H. unfold units_for. Z.to_euclidean_division_equations. lia. Qed.
Lemma units9 x n : units_for x <= n -> x <= 9 * n.
Proof. unfold units_for. intros H. Z.to_euclidean_division_equations. lia. Qed.
Lemma sized_returns m I F st c v : sizes_ok I F -> prepared I F st -> sized_call I F c -> meaning (fun i => value (st i)) c v -> (Qabs v < pow10 (9 * I (target c)))%Q ->
  (forall i j, (exists k, c = Mul i j k) -> m = Debug -> (value (st i) == 0)%Q \/ (value (st j) == 0)%Q \/ (1 <= Qabs (value (st i)))%Q) ->
  exists d, perform m st c = Ret (Ok tt, d).
Proof.
  intros SO R A M B D. destruct c as [k bs reset|k n|k n|k|k|i k|k|k|i j k|i j k|i j k|i j k|i j k incr|i k f|k f]; cbn [sized_call perform meaning target] in *; try (eexists; reflexivity); try contradiction.
  - destruct A as (-> & n & OK & -> & EX & A1 & _). destruct (parse_accepts m (st k) true n) as (d & E & _); [apply R|exact OK|exact (conj EX A1)|exists d; exact E].
  - destruct (from_i64_ok m n (proj1 A)) as (d & E & _). rewrite E. exists d. reflexivity.
  - destruct (from_u64_ok m n (proj1 A)) as (d & E & _). rewrite E. exists d. reflexivity.
  - destruct (R i) as [(Wi & Ci & _) Zi]. destruct (R j) as [(Wj & Cj & _) Zj]. unfold within in *. apply (add_sub_7 m (st i) (st j) (st k) Wi Wj Ci Cj). lia.
  - destruct (R i) as [(Wi & Ci & _) Zi]. destruct (R j) as [(Wj & Cj & _) Zj]. unfold within in *. apply (add_sub_7 m (st i) (st j) (st k) Wi Wj Ci Cj). lia.
  - destruct A as (A1 & A2 & A3). destruct (product_size I F st i j k SO R A1 A2 A3) as (PF & PI & PR & LO & L1). destruct (SO k) as (K1 & K2 & K3). apply units9 in PI, PR.
    destruct (C73_every_product m (st i) (st j) (st k) (proj1 (R i)) (proj1 (R j))) as [(_ & E)|(Ni & Nj & [(N & _)|[(_ & L & _)|(_ & _ & d & E & _)]])].
    + eexists. exact E.
    + exfalso. apply N. pose proof (proj1 (proj1 (R i))) as Wi. pose proof (some_units _ Wi Ni) as SU. split; [lia|]. split; [lia|].
      right. destruct (Z.lt_ge_cases (product_lost_units (st i) (st j)) (iu (st i) + fu (st i))) as [X|X]; [left; exact X|right].
      assert (product_lost_units (st i) (st j) = 1) by lia. destruct m; [exfalso|split; [reflexivity|lia]].
      destruct (D i j (ex_intro _ k eq_refl) eq_refl) as [Z0|[Z0|G]]; [exact (Ni Z0)|exact (Nj Z0)|]. pose proof (int_units_positive _ Wi G). lia.
    + exfalso. lia.
    + exists d. exact E.
  - destruct (R i) as [(Wi & Ci & Ti & Ni) Zi]. destruct A as [A1 A2]. destruct (SO k) as (K1 & K2 & K3). unfold within in Zi. pose proof (units_round f (F k) A2) as U.
    destruct (proj2 (round_to_returns m (st i) (st k) f Wi ltac:(lia) (or_intror Ni))) as (d & E).
    + split; [lia|]. rewrite M in B. eapply Qlt_le_trans; [exact B|]. apply pow10_le. lia.
    + rewrite E. exists d. reflexivity.
Qed.
Lemma within_same I F d d' : same_digits d d' -> within I F d -> within I F d'.
Proof. intros S. unfold within. rewrite (same_iu d d' S), (same_fu d d' S). auto. Qed.
Lemma sized_within m I F st c d : sizes_ok I F -> prepared I F st -> sized_call I F c -> perform m st c = Ret (Ok tt, d) -> regular d ->
  (Qabs (value d) < pow10 (9 * I (target c)))%Q -> within (I (target c)) (F (target c)) d.
Proof.
  intros SO R A H (W & _) B. rewrite DivQ.pow10_base in B by (specialize (SO (target c)); lia).
  destruct c as [k bs reset|k n|k n|k|k|i k|k|k|i j k|i j k|i j k|i j k|i j k incr|i k f|k f]; cbn [sized_call perform target] in *; try contradiction; destruct (SO k) as (K1 & K2 & K3).
  - destruct A as (-> & n & OK & -> & EX & A1 & A2 & A3). destruct (parse_accepts m (st k) true n) as (d' & E & P); [apply R|exact OK|exact (conj EX A1)|].
    rewrite H in E. injection E as <-. apply within_digits; [exact W|rewrite (p_int _ _ _ P); exact A3|rewrite (p_frac _ _ _ P); exact A2].
  - destruct A as [A S]. destruct (from_i64_ok m n A) as (d' & E & (_ & _ & _ & _ & _ & _ & FE & _)). rewrite E in H. injection H as <-. apply within_digits; [exact W| |].
    + exact (from_i64_size m (I k) n d' ltac:(lia) A S E).
    + rewrite FE. clear - K2. lia.
  - destruct A as [A S]. destruct (from_u64_ok m n A) as (d' & E & (_ & _ & _ & _ & _ & _ & FE & _) & _). rewrite E in H. injection H as <-. apply within_digits; [exact W| |].
    + exact (from_u64_size m (I k) n d' ltac:(lia) A S E).
    + rewrite FE. clear - K2. lia.
  - injection H as <-. change (set_zero (st k)) with zero. unfold within. change (iu zero) with 1. change (fu zero) with 0. lia.
  - injection H as <-. unfold within. change (iu (set_one (st k))) with 1. change (fu (set_one (st k))) with 0. lia.
  - injection H as <-. destruct (R i) as [_ Zi]. unfold within in *. lia.
  - injection H as <-. eapply within_same; [apply set_neg_same, wf_intg, R|apply R].
  - injection H as <-. eapply within_same; [apply set_pos_same|apply R].
  - destruct (R i) as [(Wi & Ci & _) Zi]. destruct (R j) as [(Wj & Cj & _) Zj]. unfold within in *. apply and_comm.
    apply (add_to_shape m (st i) (st j) (st k)); auto; lia.
  - destruct (R i) as [(Wi & Ci & _) Zi]. destruct (R j) as [(Wj & Cj & _) Zj]. unfold within in *. apply and_comm.
    apply (sub_to_shape m (st i) (st j) (st k)); auto; lia.
  - destruct A as (A1 & A2 & A3). destruct (product_size I F st i j k SO R A1 A2 A3) as (PF & PI & PR & LO & L1).
    destruct (C73_every_product m (st i) (st j) (st k) (proj1 (R i)) (proj1 (R j))) as [(_ & E)|(Ni & Nj & [(N & p & E)|[(_ & L & E)|(_ & _ & d' & E & _ & _ & _ & ID & FD & _)]])].
    + rewrite H in E. injection E as ->. unfold within. change (iu zero) with 1. change (fu zero) with 0. lia.
    + rewrite H in E. discriminate E.
    + rewrite H in E. discriminate E.
    + rewrite H in E. injection E as <-. apply within_digits; [exact W| |].
      * unfold product_int_units in ID. lia.
      * unfold product_frac_units in FD. lia.
  - destruct (R i) as [(Wi & Ci & Ti & Ni) Zi]. destruct A as [A1 A2]. apply bind_inv in H. destruct H as (d' & E & H). injection H as ->. unfold within in Zi. split.
    + eapply round_to_shape; [exact Wi| |exact E| |exact B]; lia.
    + assert (FE : frac_digits d = f) by (apply (round_to_spec_ret m (st i) (st k) f d Wi ltac:(lia) (or_intror Ni) E)).
      unfold fu. rewrite FE. apply units_round. exact A2.
Qed.

Lemma sized_step m I F st c v : sizes_ok I F -> prepared I F st -> sized_call I F c -> meaning (fun i => value (st i)) c v -> (Qabs v < pow10 (9 * I (target c)))%Q ->
  (forall i j, (exists k, c = Mul i j k) -> m = Debug -> (value (st i) == 0)%Q \/ (value (st j) == 0)%Q \/ (1 <= Qabs (value (st i)))%Q) ->
  exists d, perform m st c = Ret (Ok tt, d) /\ (value d == v)%Q /\ prepared I F (write st (target c) d).
Proof.
  intros SO R A M B D. destruct (sized_returns m I F st c v SO R A M B D) as (d & E). exists d. split; [exact E|].
  pose proof (sized_exact I F st c SO R A) as X. assert (RR : forall i, regular (st i)) by (intros i; apply R).
  assert (V : (value d == v)%Q) by (eapply meaning_unique; [intros i; reflexivity|exact (exact_step m st c (Ok tt) d RR X E)|exact M]).
  split; [exact V|]. pose proof (careful_step m st c (Ok tt) d RR (exact_careful st c X) E) as G.
  intros i. unfold write. destruct (Nat.eqb_spec i (target c)) as [->|_]; [|apply R]. split; [exact G|].
  apply (sized_within m I F st c d SO R A E G). rewrite V. exact B.
Qed.
Lemma sized_program m I F cs : sizes_ok I F -> forall st x x', prepared I F st -> (forall i, (value (st i) == x i)%Q) -> Forall (sized_call I F) cs -> sized_run m I x cs x' ->
  exists st', ok_history m st cs st' /\ prepared I F st' /\ forall i, (value (st' i) == x' i)%Q.
Proof.
  intros SO st x x' R E S H. revert st R E S. induction H as [x|x c cs v x' M B D H IH]; intros st R E S.
  - exists st. split; [constructor|]. split; assumption.
  - inversion S as [|? ? A S']; subst. destruct (sized_step m I F st c v SO R A) as (d & P & V & R').
    + eapply meaning_ext; [|exact M]. intros i. symmetry. apply E.
    + exact B.
    + intros i j (k & ->) ->. rewrite !E. eapply D; reflexivity.
    + destruct (IH (write st (target c) d) R') as (st' & H' & R2 & E').
      * intros i. unfold write. destruct (Nat.eqb i (target c)); [exact V|apply E].
      * exact S'.
      * exists st'. split; [econstructor; eassumption|]. split; assumption.
Qed.

(** ** C104 *)
Theorem C104_sized_programs : forall m I F cs x, sizes_ok I F -> Forall (sized_call I F) cs -> sized_run m I (fun _ => 0%Q) cs x ->
  exists st, ok_history m (fun _ => zero) cs st /\
    forall i, regular (st i) /\ iu (st i) <= I i /\ fu (st i) <= F i /\ (value (st i) == x i)%Q /\
      exists n, to_string m (st i) (-1) = Ret (numeral_bytes n) /\ canonical n /\ (numeral_value n == x i)%Q.
Proof.
  intros m I F cs x SO S H. destruct (sized_program m I F cs SO (fun _ => zero) (fun _ => 0%Q) x) as (st & O & R & E).
  - intros i. split; [apply regular_zero|]. unfold within. change (iu zero) with 1. change (fu zero) with 0. specialize (SO i). lia.
  - intros i. reflexivity.
  - exact S.
  - exact H.
  - exists st. split; [exact O|]. intros i. destruct (R i) as [G [WI WF]]. split; [exact G|]. split; [exact WI|]. split; [exact WF|]. split; [apply E|].
    destruct G as (W & _ & _ & N). destruct (C08_to_string_is_exact m (st i) W N) as (n & T & C & _ & _ & V). exists n. split; [exact T|]. split; [exact C|]. rewrite V. apply E.
Qed.
Print Assumptions C104_sized_programs.

(** The run on paper exists whenever the numbers are small enough, and is unique; so does the program. *)
Theorem C104_results_are_unique : forall m I x y cs x' y', (forall i, (x i == y i)%Q) -> sized_run m I x cs x' -> sized_run m I y cs y' -> forall i, (x' i == y' i)%Q.
Proof.
  intros m I x y cs x' y' E H. revert y y' E. induction H as [x|x c cs v x' M B D H IH]; intros y y' E G; inversion G as [|? ? ? w ? M' B' D' G']; subst; [exact E|].
  apply (IH (write y (target c) w) y'); [|exact G']. pose proof (meaning_unique x y c v w E M M') as V.
  intros i. unfold write. destruct (Nat.eqb i (target c)); [exact V|apply E].
Qed.
Print Assumptions C104_results_are_unique.

(** Two factors of 27 and 18 digits and sums of their products: sizes (3,1), (2,1), (5,2). *)
Definition ex_int (i : nat) : Z := match i with 0%nat => 3 | 1%nat => 2 | _ => 5 end.
Definition ex_frac (i : nat) : Z := match i with 0%nat => 1 | 1%nat => 1 | _ => 2 end.
Definition ex_program : list call :=
  [Parse 0 (bytes "123456789012345678901234567.5") true; FromI64 1 (-987654321987654321); Mul 0 1 2; Copy 2 3; Sub 2 3 4; Add 2 4 3; RoundTo 3 5 0; SetPos 5].
Example C104_example : sizes_ok ex_int ex_frac /\ Forall (sized_call ex_int ex_frac) ex_program /\
  exists x, sized_run Debug ex_int (fun _ => 0%Q) ex_program x /\ (x 5%nat == inject_Z 121932631246761163237311384938424020325941168)%Q.
Proof.
  pose (n := mknum None [1;2;3;4;5;6;7;8;9;0;1;2;3;4;5;6;7;8;9;0;1;2;3;4;5;6;7] true [5] None).
  assert (OK : numeral_ok n) by (repeat constructor; cbn; try lia; try (vm_compute; discriminate); try congruence; auto).
  split; [|split].
  - intros [|[|[|k]]]; cbn; lia.
  - unfold ex_program. apply Forall_cons; [split; [reflexivity|]; exists n; split; [exact OK|]; vm_compute; repeat split; discriminate|].
    apply Forall_cons; [vm_compute; repeat split; discriminate|].
    repeat (apply Forall_cons; [vm_compute; repeat split; discriminate|]). apply Forall_nil.
  - pose (a := ((1234567890123456789012345675 # 10)%Q)). pose (b := inject_Z (-987654321987654321)). eexists. split.
    + unfold ex_program.
      eapply s_cons with (v := a); [left; exists n; split; [exact OK|]; split; [vm_compute; repeat split; discriminate|]; split; vm_compute; reflexivity|vm_compute; reflexivity|intros; discriminate|].
      eapply s_cons with (v := b); [cbn; reflexivity|vm_compute; reflexivity|intros; discriminate|].
      eapply s_cons with (v := (a * b)%Q); [cbn; reflexivity|vm_compute; reflexivity|intros i j k X _; injection X as <- <- <-; right; right; vm_compute; discriminate|].
      eapply s_cons with (v := (a * b)%Q); [cbn; reflexivity|vm_compute; reflexivity|intros; discriminate|].
      eapply s_cons with (v := 0%Q); [vm_compute; reflexivity|vm_compute; reflexivity|intros; discriminate|].
      eapply s_cons with (v := (a * b)%Q); [vm_compute; reflexivity|vm_compute; reflexivity|intros; discriminate|].
      eapply s_cons with (v := inject_Z (-121932631246761163237311384938424020325941168)); [vm_compute; reflexivity|vm_compute; reflexivity|intros; discriminate|].
      eapply s_cons with (v := inject_Z 121932631246761163237311384938424020325941168); [vm_compute; reflexivity|vm_compute; reflexivity|intros; discriminate|].
      apply s_nil.
    + vm_compute. reflexivity.
Qed.
