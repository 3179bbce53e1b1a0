(** * Property C103: ledger programs never panic and are exact. *)
From Coq Require Import ZArith List Bool String Lia QArith Qabs Lqa.
From Verif Require Import Rust Model_Base Model_Cmp Model_Round Model_Decimal Model_Arith Model_Serde Spec Spec_Machine Spec_History Spec_Ledger Lib Cmp AddSub Sign AddTo AddSubQ Basics QLib Round RoundTo RoundQ Conv
  ParseMain ParseThms MulAbs MulQ MulLaws Laws History Prop_AddSub Prop_Print Prop_Exact Prop_History Tests Witness.
Import ListNotations.
Open Scope Z_scope.

Lemma from_u64_units2 m n d : 0 <= n < 10 ^ 18 -> from_u64 m n = Ret d -> int_digits d <= 18.
Proof.
  intros Hn H. unfold from_u64 in H. apply bind_inv in H. destruct H as ([l i] & E & H). injection H as <-.
  apply (from_u64_loop_units m 10 2) in E; [|change (base ^ Z.of_nat 2) with (10 ^ 18); lia]. change (Z.of_nat 2) with 2 in E.
  assert (i = 0 \/ i = 1 \/ i = 2) as [->|[->| ->]] by lia; vm_compute; discriminate.
Qed.
Lemma from_i64_units2 m n d : Z.abs n < 10 ^ 18 -> from_i64 m n = Ret d -> int_digits d <= 18.
Proof.
  intros Hn H. assert (B : -1000000000000000000 < n < 1000000000000000000) by (apply Z.abs_lt in Hn; exact Hn).
  unfold from_i64 in H. destruct (Z.eqb_spec n (-9223372036854775808)) as [->|Nn]; [lia|].
  destruct (Z.ltb_spec n 0).
  - rewrite i64_ok in H by lia. rewrite bind_Ret in H. cbv beta in H. rewrite as_usize_id in H by lia. apply bind_inv in H. destruct H as (d' & E & H). injection H as <-.
    destruct (from_u64_ok m (- n) ltac:(lia)) as (d2 & E2 & (W & _) & _). assert (d2 = d') as -> by congruence.
    rewrite (proj1 (set_neg_same d' (wf_intg d' W))). apply (from_u64_units2 m (- n)); [lia|exact E].
  - rewrite as_usize_id in H by lia. apply (from_u64_units2 m n); [lia|exact H].
Qed.
Lemma sub_to_shape m a b res d F I : wf a -> wf b -> sub_to m a b res = Ret (Ok tt, d) ->
  fu a <= F -> fu b <= F -> iu a <= I -> iu b <= I -> 0 <= I ->
  (Qabs (value d) < inject_Z (base ^ I))%Q -> fu d <= F /\ iu d <= I.
Proof.
  intros Ha Hb H Fa Fb Ia Ib HI HV. unfold sub_to in H.
  destruct (is_zero a).
  { cbv zeta in H. injection H as <-. destruct (is_neg b).
    - rewrite (same_fu b _ (set_pos_same b)), (same_iu b _ (set_pos_same b)). auto.
    - rewrite (same_fu b _ (check_zero_same b (wf_intg b Hb))), (same_iu b _ (check_zero_same b (wf_intg b Hb))). auto. }
  destruct (is_zero b). { injection H as <-. auto. }
  assert (G : forall v, arith_result a b d v -> fu d <= F /\ iu d <= I).
  { intros v ([W _ _] & Hf & _ & _ & _ & _ & Ht). split.
    - unfold fu at 1, frac_digits. rewrite Hf, units_for_max.
      change (units_for (fd_frac a)) with (fu a). change (units_for (fd_frac b)) with (fu b). lia.
    - apply iu_of_bound; assumption. }
  cbv zeta in H. destruct (negb (eqb (is_neg a) (is_neg b))).
  - apply bind_inv in H. destruct H as ([rs0 d0] & E & H).
    destruct (add_path m a b res rs0 d0 (is_neg a) Ha Hb E) as (d' & E' & R). rewrite H in E'. injection E' as <-. eauto.
  - apply bind_inv in H. destruct H as ([rs0 d0] & E & H).
    destruct (sub_path m a b res rs0 d0 (is_neg a) Ha Hb E) as (d' & E' & R). rewrite H in E'. injection E' as <-. eauto.
Qed.
Lemma round_to_shape m a res f d I : wf a -> 0 <= f <= 127 -> round_to m a res f = Ret d -> iu a <= I -> (Qabs (value d) < inject_Z (base ^ I))%Q -> iu d <= I.
Proof.
  intros Ha Hf H HI HV. pose proof (wf_counts a Ha) as CA. destruct (Z.lt_ge_cases f (frac_digits a)) as [L|L].
  - destruct (round_to_frac m a res f Ha ltac:(lia)) as [(d' & E & W & _ & Ef & EM & _ & [(X & _)|(X & ES)] & _)|(E & _)]; rewrite E in H; [| |discriminate H].
    + injection H as <-. lia.
    + injection H as <-. apply iu_of_bound; [exact W| |lia|exact HV]. right.
      assert (fu d' = units_for f) as -> by (unfold fu, frac_digits; rewrite Ef; reflexivity). rewrite EM, ES, X. apply Z.eq_le_incl. f_equal. lia.
  - destruct (round_to_grow m a res f Ha ltac:(lia)) as [(_ & d' & E & _ & EI & _)|(_ & p & E)]; rewrite E in H; [|discriminate H]. injection H as <-.
    assert (iu d' = iu a) as -> by (unfold iu, int_digits; rewrite EI; reflexivity). exact HI.
Qed.

(** ** One call *)
Definition sized (s : bool) (d : fd) : Prop := iu d <= (if s then 2 else 4) /\ fu d <= (if s then 1 else 3).
Lemma sized_any s d : sized s d -> iu d <= 4 /\ fu d <= 3.
Proof. unfold sized. destruct s; lia. Qed.
Lemma sized_digits (s : bool) d : wf d -> int_digits d <= (if s then 18 else 36) -> frac_digits d <= (if s then 9 else 27) -> sized s d.
Proof. intros W A B. pose proof (wf_counts d W) as C. unfold sized, iu, fu, units_for. destruct s; Z.to_euclidean_division_equations; lia. Qed.
Lemma sized_same s d d' : same_digits d d' -> sized s d -> sized s d'.
Proof. intros S. unfold sized. rewrite (same_iu d d' S), (same_fu d d' S). auto. Qed.

Definition ready (small : nat -> bool) (st : state) : Prop := forall i, regular (st i) /\ sized (small i) (st i).

Lemma product_shape small st i j : ready small st -> small i = true -> small j = true ->
  product_fits (st i) (st j) /\ units_for (int_digits (st i) + int_digits (st j)) <= 4 /\ units_for (frac_digits (st i) + frac_digits (st j)) <= 2 /\
  product_lost_units (st i) (st j) <= 1 /\ (product_lost_units (st i) (st j) = 1 -> 1 <= fu (st i)).
Proof.
  intros R Si Sj. destruct (R i) as [(Wi & _) Zi]. destruct (R j) as [(Wj & _) Zj]. rewrite Si in Zi. rewrite Sj in Zj. unfold sized in Zi, Zj.
  pose proof (wf_counts _ Wi) as CI. pose proof (wf_counts _ Wj) as CJ. clear - CI CJ Zi Zj. unfold product_fits, product_lost_units, product_frac_units, product_int_units, iu, fu, units_for in *.
  set (x := int_digits (st i)) in *. set (y := int_digits (st j)) in *. set (u := frac_digits (st i)) in *. set (v := frac_digits (st j)) in *. clearbody x y u v.
  Z.to_euclidean_division_equations. lia.
Qed.

Lemma base4 : (pow10 36 == inject_Z (base ^ 4))%Q.
Proof. vm_compute. reflexivity. Qed.
Lemma int_units_positive d : wf d -> (1 <= Qabs (value d))%Q -> 1 <= iu d.
Proof.
  intros W H. pose proof (wf_counts d W) as C. destruct (Z.lt_ge_cases (iu d) 1) as [L|L]; [|lia]. exfalso.
  assert (E : iu d = 0) by lia. pose proof (magnitude_bound d W) as B. rewrite E, Z.add_0_l in B. pose proof (abs_mag d W) as A.
  assert (P : (0 < inject_Z (base ^ fu d))%Q) by (change 0%Q with (inject_Z 0); rewrite <- Zlt_Qlt; apply Z.pow_pos_nonneg; [reflexivity|lia]).
  assert (M : (inject_Z (magnitude d) < inject_Z (base ^ fu d))%Q) by (rewrite <- Zlt_Qlt; lia). nra.
Qed.
Lemma some_units d : wf d -> ~ (value d == 0)%Q -> 1 <= iu d + fu d.
Proof.
  intros W H. pose proof (wf_counts d W) as C. destruct (Z.lt_ge_cases (iu d + fu d) 1) as [L|L]; [|lia]. exfalso. apply H.
  pose proof (magnitude_bound d W) as B. assert (E : iu d + fu d = 0) by lia. rewrite E in B. change (base ^ 0) with 1 in B.
  apply (value_zero_iff d W). lia.
Qed.
Lemma ledger_exact small st c : ready small st -> ledger_call small c -> exact_call st c.
Proof.
  intros R A. destruct c as [k bs reset|k n|k n|k|k|i k|k|k|i j k|i j k|i j k|i j k|i j k incr|i k f|k f]; cbn [ledger_call exact_call simple_call] in *; try exact I; try contradiction.
  - destruct A as (-> & n & OK & -> & _ & A1 & A2). split; [|reflexivity]. rewrite numeral_mantissa_digits by exact OK.
    revert A1 A2. unfold numeral_digits. destruct (small k); lia.
  - apply A.
  - apply A.
  - exact (proj1 (product_shape small st i j R (proj1 A) (proj1 (proj2 A)))).
  - lia.
Qed.

Lemma ledger_returns m small st c v : ready small st -> ledger_call small c -> meaning (fun i => value (st i)) c v -> (Qabs v < pow10 36)%Q ->
  (forall i j k, c = Mul i j k -> m = Debug -> (value (st i) == 0)%Q \/ (value (st j) == 0)%Q \/ 1 <= iu (st i)) ->
  exists d, perform m st c = Ret (Ok tt, d).
Proof.
  intros R A M B D. destruct c as [k bs reset|k n|k n|k|k|i k|k|k|i j k|i j k|i j k|i j k|i j k incr|i k f|k f]; cbn [ledger_call perform meaning] in *; try (eexists; reflexivity); try contradiction.
  - destruct A as (-> & n & OK & -> & EX & A1 & A2). destruct (parse_accepts m (st k) true n) as (d & E & _); [apply R|exact OK| |exists d; exact E].
    split; [exact EX|]. destruct (small k); lia.
  - destruct (from_i64_ok m n (proj1 A)) as (d & E & _). rewrite E. exists d. reflexivity.
  - destruct (from_u64_ok m n (proj1 A)) as (d & E & _). rewrite E. exists d. reflexivity.
  - destruct (R i) as [(Wi & Ci & _) Zi]. destruct (R j) as [(Wj & Cj & _) Zj]. apply sized_any in Zi, Zj. apply (add_sub_7 m (st i) (st j) (st k) Wi Wj Ci Cj). lia.
  - destruct (R i) as [(Wi & Ci & _) Zi]. destruct (R j) as [(Wj & Cj & _) Zj]. apply sized_any in Zi, Zj. apply (add_sub_7 m (st i) (st j) (st k) Wi Wj Ci Cj). lia.
  - destruct A as (Si & Sj & _). destruct (product_shape small st i j R Si Sj) as (F & PI & PF & LO & L1).
    destruct (C73_every_product m (st i) (st j) (st k) (proj1 (R i)) (proj1 (R j))) as [(_ & E)|(Ni & Nj & [(N & _)|[(_ & L & _)|(_ & _ & d & E & _)]])].
    + eexists. exact E.
    + exfalso. apply N. pose proof (proj1 (proj1 (R i))) as Wi. pose proof (some_units _ Wi Ni) as SU. split; [|split].
      * clear - PI. unfold units_for in PI. Z.to_euclidean_division_equations. lia.
      * clear - PF. unfold units_for in PF. Z.to_euclidean_division_equations. lia.
      * right. destruct (Z.lt_ge_cases (product_lost_units (st i) (st j)) (iu (st i) + fu (st i))) as [X|X]; [left; exact X|right].
        assert (product_lost_units (st i) (st j) = 1) by lia. destruct m; [exfalso|split; [reflexivity|lia]].
        destruct (D i j k eq_refl eq_refl) as [Z0|[Z0|G]]; [exact (Ni Z0)|exact (Nj Z0)|]. lia.
    + exfalso. clear - PI L. unfold units_for in PI. Z.to_euclidean_division_equations. lia.
    + exists d. exact E.
  - destruct (R i) as [(Wi & Ci & Ti & Ni) Zi]. apply sized_any in Zi. destruct A as [_ A].
    assert (U : units_for f <= 3) by (clear - A; unfold units_for; Z.to_euclidean_division_equations; lia).
    destruct (proj2 (round_to_returns m (st i) (st k) f Wi ltac:(lia) (or_intror Ni))) as (d & E).
    + split; [lia|]. rewrite M in B. eapply Qlt_le_trans; [exact B|]. apply pow10_le. lia.
    + rewrite E. exists d. reflexivity.
Qed.
Lemma ledger_sized m small st c d : ready small st -> ledger_call small c -> perform m st c = Ret (Ok tt, d) -> regular d -> (Qabs (value d) < pow10 36)%Q -> sized (small (target c)) d.
Proof.
  intros R A H (W & _) B. rewrite base4 in B. destruct c as [k bs reset|k n|k n|k|k|i k|k|k|i j k|i j k|i j k|i j k|i j k incr|i k f|k f]; cbn [ledger_call perform target] in *; try contradiction.
  - destruct A as (-> & n & OK & -> & EX & A1 & A2). destruct (parse_accepts m (st k) true n) as (d' & E & P); [apply R|exact OK| |].
    + split; [exact EX|]. destruct (small k); lia.
    + rewrite H in E. injection E as <-. apply sized_digits; [exact W|rewrite (p_int _ _ _ P); exact A2|rewrite (p_frac _ _ _ P); apply A1].
  - destruct A as [A S]. destruct (from_i64_ok m n A) as (d' & E & (_ & _ & _ & _ & _ & _ & F & _)). rewrite E in H. injection H as <-. apply sized_digits; [exact W| |].
    + destruct (small k); [apply (from_i64_units2 m n); [apply S; reflexivity|exact E]|]. pose proof (from_i64_units3 m n d' A E). lia.
    + unfold frac_digits in *. destruct (small k); lia.
  - destruct A as [A S]. destruct (from_u64_ok m n A) as (d' & E & (_ & _ & _ & _ & _ & _ & F & _) & _). rewrite E in H. injection H as <-. apply sized_digits; [exact W| |].
    + destruct (small k); [apply (from_u64_units2 m n); [split; [apply A|specialize (S eq_refl); lia]|exact E]|]. pose proof (from_u64_units3 m n d' A E). lia.
    + unfold frac_digits in *. destruct (small k); lia.
  - injection H as <-. unfold sized. destruct (small k); vm_compute; split; discriminate.
  - injection H as <-. unfold sized. destruct (small k); vm_compute; split; discriminate.
  - injection H as <-. destruct (R i) as [_ Zi]. unfold sized in *. destruct (small k); [rewrite (A eq_refl) in Zi; exact Zi|]. destruct (small i); lia.
  - injection H as <-. eapply sized_same; [apply set_neg_same, wf_intg, R|apply R].
  - injection H as <-. eapply sized_same; [apply set_pos_same|apply R].
  - destruct (R i) as [(Wi & Ci & _) Zi]. destruct (R j) as [(Wj & Cj & _) Zj]. apply sized_any in Zi, Zj. rewrite A. unfold sized. apply and_comm.
    apply (add_to_shape m (st i) (st j) (st k)); auto; lia.
  - destruct (R i) as [(Wi & Ci & _) Zi]. destruct (R j) as [(Wj & Cj & _) Zj]. apply sized_any in Zi, Zj. rewrite A. unfold sized. apply and_comm.
    apply (sub_to_shape m (st i) (st j) (st k)); auto; lia.
  - destruct A as (Si & Sj & Sk). destruct (product_shape small st i j R Si Sj) as (F & PI & PF & LO & L1). rewrite Sk.
    destruct (C73_every_product m (st i) (st j) (st k) (proj1 (R i)) (proj1 (R j))) as [(_ & E)|(Ni & Nj & [(N & p & E)|[(_ & L & E)|(_ & _ & d' & E & _ & _ & _ & ID & FD & _)]])].
    + rewrite H in E. injection E as ->. vm_compute. split; discriminate.
    + rewrite H in E. discriminate E.
    + rewrite H in E. discriminate E.
    + rewrite H in E. injection E as <-. apply (sized_digits false); [exact W| |].
      * unfold product_int_units in ID. lia.
      * unfold product_frac_units in FD. lia.
  - destruct (R i) as [(Wi & Ci & Ti & Ni) Zi]. apply sized_any in Zi. destruct A as [-> A]. apply bind_inv in H. destruct H as (d' & E & H). injection H as ->. split.
    + eapply round_to_shape; [exact Wi| |exact E|apply Zi|exact B]. lia.
    + assert (FE : frac_digits d = f) by (apply (round_to_spec_ret m (st i) (st k) f d Wi ltac:(lia) (or_intror Ni) E)). 
      unfold fu. rewrite FE. clear - A. unfold units_for. Z.to_euclidean_division_equations. lia.
Qed.
Lemma ledger_step m small st c v : ready small st -> ledger_call small c -> meaning (fun i => value (st i)) c v -> (Qabs v < pow10 36)%Q ->
  (forall i j k, c = Mul i j k -> m = Debug -> (value (st i) == 0)%Q \/ (value (st j) == 0)%Q \/ 1 <= iu (st i)) ->
  exists d, perform m st c = Ret (Ok tt, d) /\ (value d == v)%Q /\ ready small (write st (target c) d).
Proof.
  intros R A M B D. destruct (ledger_returns m small st c v R A M B D) as (d & E). exists d. split; [exact E|].
  pose proof (ledger_exact small st c R A) as X. assert (RR : forall i, regular (st i)) by (intros i; apply R).
  assert (V : (value d == v)%Q) by (eapply meaning_unique; [intros i; reflexivity|exact (exact_step m st c (Ok tt) d RR X E)|exact M]).
  split; [exact V|]. pose proof (careful_step m st c (Ok tt) d RR (exact_careful st c X) E) as G.
  intros i. unfold write. destruct (Nat.eqb_spec i (target c)) as [->|_]; [|apply R]. split; [exact G|].
  apply (ledger_sized m small st c d R A E G). rewrite V. exact B.
Qed.

(** ** Programs *)
Lemma ledger_program m small cs : forall st x x', ready small st -> (forall i, (value (st i) == x i)%Q) -> Forall (ledger_call small) cs -> ledger_run m x cs x' ->
  exists st', ok_history m st cs st' /\ ready small st' /\ forall i, (value (st' i) == x' i)%Q.
Proof.
  intros st x x' R E F H. revert st R E F. induction H as [x|x c cs v x' M B D H IH]; intros st R E F.
  - exists st. split; [constructor|]. split; assumption.
  - inversion F as [|? ? A F']; subst. destruct (ledger_step m small st c v R A) as (d & P & V & R').
    + eapply meaning_ext; [|exact M]. intros i. symmetry. apply E.
    + exact B.
    + intros i j k -> ->. destruct (D i j k eq_refl eq_refl) as [Z0|[Z0|G]]; [left; rewrite E; exact Z0|right; left; rewrite E; exact Z0|right; right]. apply int_units_positive; [apply R|rewrite E; exact G].
    + destruct (IH (write st (target c) d) R') as (st' & H' & R2 & E').
      * intros i. unfold write. destruct (Nat.eqb i (target c)); [exact V|apply E].
      * exact F'.
      * exists st'. split; [econstructor; eassumption|]. split; assumption.
Qed.
Lemma ready_zero small : ready small (fun _ => zero).
Proof. intros i. split; [apply regular_zero|]. unfold sized. destruct (small i); vm_compute; split; discriminate. Qed.

Theorem C103_ledgers : forall m small cs x, Forall (ledger_call small) cs -> ledger_run m (fun _ => 0%Q) cs x ->
  exists st, ok_history m (fun _ => zero) cs st /\
    forall i, regular (st i) /\ (value (st i) == x i)%Q /\
      exists n, to_string m (st i) (-1) = Ret (numeral_bytes n) /\ canonical n /\ (numeral_value n == x i)%Q.
Proof.
  intros m small cs x F H. destruct (ledger_program m small cs (fun _ => zero) (fun _ => 0%Q) x (ready_zero small)) as (st & O & R & E); [intros i; reflexivity|exact F|exact H|].
  exists st. split; [exact O|]. intros i. destruct (R i) as [G _]. split; [exact G|]. split; [apply E|].
  destruct G as (W & _ & _ & N). destruct (C08_to_string_is_exact m (st i) W N) as (n & S & C & _ & _ & V). exists n. split; [exact S|]. split; [exact C|]. rewrite V. apply E.
Qed.
Print Assumptions C103_ledgers.

(** ** Invoices *)
Definition small01 (i : nat) : bool := Nat.ltb i 2.
Lemma entry_call k n : (k < 2)%nat -> entry_ok n -> ledger_call small01 (Parse k (numeral_bytes n) true).
Proof.
  intros K (A & B & C & D). cbn [ledger_call]. split; [reflexivity|]. exists n. unfold small01. destruct (Nat.ltb_spec k 2); [|lia]. auto.
Qed.
Lemma invoice_calls l : Forall (fun pq => entry_ok (fst pq) /\ entry_ok (snd pq)) l -> Forall (ledger_call small01) (invoice l).
Proof.
  induction 1 as [|[p q] l [P Q] F IH]; [constructor|]. cbn [fst snd] in P, Q. cbn [invoice flat_map app].
  repeat apply Forall_cons; try (apply entry_call; [lia|assumption]); try exact IH; cbn; auto; intros; discriminate.
Qed.
Lemma value_below d n : wf d -> iu d <= n -> (Qabs (value d) < inject_Z (base ^ n))%Q.
Proof.
  intros W H. pose proof (wf_counts d W) as C. pose proof (magnitude_bound d W) as B. pose proof (abs_mag d W) as A.
  assert (P : (0 < inject_Z (base ^ fu d))%Q) by (change 0%Q with (inject_Z 0); rewrite <- Zlt_Qlt; apply Z.pow_pos_nonneg; [reflexivity|lia]).
  assert (M : (inject_Z (magnitude d) < inject_Z (base ^ n) * inject_Z (base ^ fu d))%Q).
  { rewrite <- inject_Z_mult, <- Zlt_Qlt, <- Z.pow_add_r by lia. eapply Z.lt_le_trans; [apply B|]. apply Z.pow_le_mono_r; [reflexivity|lia]. }
  rewrite <- A in M. apply Qmult_lt_r in M; assumption.
Qed.
Lemma entry_below n : entry_ok n -> (Qabs (numeral_value n) < inject_Z (base ^ 2))%Q.
Proof.
  intros (OK & EX & F & D). destruct (parse_accepts Debug zero true n wf_zero OK) as (d & _ & P); [split; [exact EX|lia]|].
  rewrite <- (p_value _ _ _ P). apply value_below; [exact (p_wf _ _ _ P)|].
  pose proof (p_int _ _ _ P) as I. unfold iu. rewrite I. set (z := numeral_digits n - numeral_frac n) in *. clearbody z. clear - D. unfold units_for. Z.to_euclidean_division_equations. lia.
Qed.
Lemma invoice_size_pos l : (0 <= invoice_size l)%Q.
Proof. induction l as [|[p q] l IH]; [apply Qle_refl|]. cbn [invoice_size fold_right]. pose proof (Qabs_nonneg (numeral_value p * numeral_value q)). fold (invoice_size l). lra. Qed.
Lemma invoice_states m l : Forall (fun pq => entry_ok (fst pq) /\ entry_ok (snd pq)) l -> (m = Debug -> Forall debug_line l) ->
  forall st x, ready small01 st -> (value (st 3%nat) == x)%Q -> (Qabs x + invoice_size l < pow10 36)%Q ->
  exists st', ok_history m st (invoice l) st' /\ ready small01 st' /\ (value (st' 3%nat) == x + invoice_total l)%Q.
Proof.
  induction 1 as [|[p q] l [P Q] F IH]; intros D st x R X B.
  - exists st. split; [constructor|]. split; [exact R|]. change (invoice_total []) with 0%Q. rewrite X. ring.
  - cbn [fst snd] in P, Q. cbn [invoice_size fold_right] in B. fold (invoice_size l) in B. pose proof (invoice_size_pos l) as SP.
    set (v := (numeral_value p * numeral_value q)%Q) in *. pose proof (Qabs_triangle x v) as T. pose proof (Qabs_nonneg x) as N3. pose proof (Qabs_nonneg v) as Nv.
    assert (S2 : (inject_Z (base ^ 2) < pow10 36)%Q) by (vm_compute; reflexivity).
    assert (W : forall n, entry_ok n -> within_limits n) by (intros n (_ & EX & Fn & Dn); split; [exact EX|lia]).
    assert (MP : forall k n y, entry_ok n -> meaning y (Parse k (numeral_bytes n) true) (numeral_value n)).
    { intros k n y En. left. exists n. repeat split; try apply En; try apply (W n En); reflexivity. }
    destruct (ledger_step m small01 st (Parse 0 (numeral_bytes p) true) (numeral_value p) R (entry_call 0 p ltac:(lia) P) (MP 0%nat p _ P) ltac:(eapply Qlt_trans; [apply entry_below, P|exact S2]) ltac:(intros; discriminate)) as (d1 & E1 & V1 & R1).
    cbn [target] in R1. set (st1 := write st 0%nat d1) in *.
    destruct (ledger_step m small01 st1 (Parse 1 (numeral_bytes q) true) (numeral_value q) R1 (entry_call 1 q ltac:(lia) Q) (MP 1%nat q _ Q) ltac:(eapply Qlt_trans; [apply entry_below, Q|exact S2]) ltac:(intros; discriminate)) as (d2 & E2 & V2 & R2).
    cbn [target] in R2. set (st2 := write st1 1%nat d2) in *.
    destruct (ledger_step m small01 st2 (Mul 0 1 2) v R2) as (d3 & E3 & V3 & R3).
    { cbn. auto. }
    { cbn [meaning]. change (st2 0%nat) with d1. change (st2 1%nat) with d2. rewrite V1, V2. reflexivity. }
    { lra. }
    { intros i j k Eq M. injection Eq as <- <- <-. change (st2 0%nat) with d1. change (st2 1%nat) with d2. specialize (D M). inversion D as [|? ? D1 _]; subst. unfold debug_line in D1. cbn [fst snd] in D1.
      destruct D1 as [D1|[D1|[D1|D1]]]; [left; rewrite V1; exact D1|right; left; rewrite V2; exact D1|right; right|right; right].
      - apply int_units_positive; [exact (proj1 (proj1 (R1 0%nat)))|rewrite V1; exact D1].
      - destruct (parse_accepts Debug (st 0%nat) true p (proj1 (proj1 (R 0%nat))) (proj1 P) (W p P)) as (d' & E' & PD). cbn [perform] in E1. rewrite E' in E1. injection E1 as <-.
        pose proof (p_int _ _ _ PD) as I. unfold iu. rewrite I. set (z := numeral_digits p - numeral_frac p) in *. clearbody z. clear - D1. unfold units_for. Z.to_euclidean_division_equations. lia. }
    cbn [target] in R3. set (st3 := write st2 2%nat d3) in *.
    destruct (ledger_step m small01 st3 (Add 3 2 4) (x + v)%Q R3) as (d4 & E4 & V4 & R4).
    { reflexivity. }
    { cbn [meaning]. change (st3 3%nat) with (st 3%nat). change (st3 2%nat) with d3. rewrite X, V3. reflexivity. }
    { lra. }
    { intros; discriminate. }
    cbn [target] in R4. set (st4 := write st3 4%nat d4) in *.
    destruct (ledger_step m small01 st4 (Copy 4 3) (x + v)%Q R4) as (d5 & E5 & V5 & R5).
    { cbn. intros; discriminate. }
    { cbn [meaning]. change (st4 4%nat) with d4. rewrite V4. reflexivity. }
    { lra. }
    { intros; discriminate. }
    cbn [target] in R5. set (st5 := write st4 3%nat d5) in *.
    destruct (IH ltac:(intros M; specialize (D M); inversion D; assumption) st5 (x + v)%Q R5 V5 ltac:(lra)) as (st' & O & R' & E).
    exists st'. split; [|split; [exact R'|]].
    + cbn [invoice flat_map app]. do 5 (eapply ok_cons; [eassumption|]). exact O.
    + rewrite E. cbn [invoice_total fold_right]. fold (invoice_total l). fold v. ring.
Qed.

(** The total of an invoice of any length is exact and prints exactly, in both builds; in
    a debug build, if the first factor of every line has an integral digit (or is at least one, or a factor is zero). *)
Theorem C103_invoices : forall m l,
  Forall (fun pq => entry_ok (fst pq) /\ entry_ok (snd pq)) l -> (m = Debug -> Forall debug_line l) ->
  (invoice_size l < pow10 36)%Q ->
  exists st, ok_history m (fun _ => zero) (invoice l) st /\ (value (st 3%nat) == invoice_total l)%Q /\
    exists n, to_string m (st 3%nat) (-1) = Ret (numeral_bytes n) /\ canonical n /\ (numeral_value n == invoice_total l)%Q.
Proof.
  intros m l F D B. destruct (invoice_states m l F D (fun _ => zero) 0%Q (ready_zero small01)) as (st & O & R & E); [reflexivity|rewrite Qplus_0_l; exact B|]. rewrite Qplus_0_l in E.
  exists st. split; [exact O|]. split; [exact E|]. destruct (R 3%nat) as [(W & _ & _ & N) _].
  destruct (C08_to_string_is_exact m (st 3%nat) W N) as (n & S & C & _ & _ & V). exists n. split; [exact S|]. split; [exact C|]. rewrite V. exact E.
Qed.
Print Assumptions C103_invoices.
Definition num1999 : numeral := mknum None [1; 9] true [9; 9] None.
Definition num3 : numeral := mknum None [3] false [] None.
Definition num25 : numeral := mknum (Some true) [0] true [2; 5] None.
Definition num0125 : numeral := mknum None [] true [1; 2; 5] None.
Definition num5 : numeral := mknum None [] true [5] None.
(** 19.99 * 3 - 0.25 * .125, in both builds. *)
Example C103_example : let l := [(num1999, num3); (num25, num0125)] in
  numeral_bytes num1999 = bytes "19.99" /\ numeral_bytes num25 = bytes "-0.25" /\ numeral_bytes num0125 = bytes ".125" /\
  Forall (fun pq => entry_ok (fst pq) /\ entry_ok (snd pq)) l /\
  Forall debug_line l /\
  (invoice_size l < pow10 36)%Q /\ (invoice_total l == 5993875 # 100000)%Q.
Proof.
  cbv zeta. repeat apply conj; try (vm_compute; reflexivity).
  - repeat constructor; cbn; try lia; try (vm_compute; discriminate); try congruence; auto.
  - apply Forall_cons; [right; right; left; vm_compute; discriminate|]. apply Forall_cons; [right; right; right; vm_compute; discriminate|]. apply Forall_nil.
Qed.
(** Both conditions are needed: in a debug build the product of .5 and .5 panics, and an
    unbounded number of products of long factors does not fit. *)
Example C103_debug_factors : entry_ok num5 /\
  (forall st, ~ ok_history Debug (fun _ => zero) (invoice [(num5, num5)]) st) /\
  exists st, ok_history Release (fun _ => zero) (invoice [(num5, num5)]) st /\ to_string Release (st 3%nat) (-1) = Ret (bytes "0.25").
Proof.
  split; [|split].
  - repeat constructor; cbn; try lia; try (vm_compute; discriminate); try congruence; auto.
  - intros st H. cbn [invoice flat_map app] in H.
    inversion H as [|? ? ? ? ? E1 H1]; subst; clear H. inversion H1 as [|? ? ? ? ? E2 H2]; subst; clear H1. inversion H2 as [|? ? ? ? ? E3 H3]; subst; clear H2.
    vm_compute in E1. injection E1 as <-. vm_compute in E2. injection E2 as <-. vm_compute in E3. discriminate E3.
  - eexists. split; [cbn [invoice flat_map app]; repeat (eapply ok_cons; [vm_compute; reflexivity|]); apply ok_nil|]. vm_compute. reflexivity.
Qed.
