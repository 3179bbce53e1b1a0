(** * Property C105: averages never fail and are correctly rounded. *)
From Coq Require Import ZArith List Bool String Lia QArith Qabs Qround Lqa.
From Verif Require Import Rust Model_Base Model_Cmp Model_Round Model_Decimal Model_Arith Model_Serde Spec Spec_Div Spec_History Spec_Ledger Spec_Average Lib Sign AddTo AddSubQ Basics Cmp QLib RoundQ MulQ MulLaws DivBasics DivQ DivG2 DivFit ParseMain ParseThms Conv History Laws Laws4
  Prop_Compare Prop_AddSub Prop_Conv Prop_Mul Prop_Print Prop_Parse Prop_Round Prop_Div Prop_Laws Prop_Laws2 Prop_Laws4 Prop_Ledger Tests Witness.
Import ListNotations.
Open Scope Z_scope.

Lemma rounded_tight m q res f r : wf q -> 0 <= f < frac_digits q -> round_to m q res f = Ret r -> tight r.
Proof.
  intros W Hf H. destruct (Round.round_to_frac m q res f W Hf) as [(d & E & (Wd & _ & _ & _ & ID & _))|(E & _)]; rewrite E in H; [|discriminate H].
  injection H as <-. apply tight_full; assumption.
Qed.

(** A quotient by a whole number of at most nine digits, and its rounding. *)
Lemma rounded_division m a b res res' f : wf a -> iu a <= 4 -> fu a <= 3 -> (Qabs (value a) < pow10 36)%Q ->
  wf b -> fu b = 0 -> significant_units 1 b -> (1 <= Qabs (value b))%Q -> 0 <= f <= 8 ->
  exists q r, div_to m a b res 4 = Ret (Ok tt, q) /\ round_to m q res' f = Ret r /\
    (value q == truncate_at (value a / value b) (frac_digits q))%Q /\ (f < frac_digits q \/ (value a == 0)%Q) /\ wf q /\ nohidden q /\
    (value r == round_at (value a / value b) f)%Q /\ frac_digits r = f /\ wf r /\ nohidden r /\
    clean r /\ tight r /\ iu r <= 6.
Proof.
  intros PWa IUa FUa A36 PWb FUb S1 LB Hf.
  assert (Nb : ~ (value b == 0)%Q). { intros X. rewrite X in LB. vm_compute in LB. apply LB. reflexivity. }
  assert (Fa : frac_digits a <= 27 /\ 0 <= frac_digits a) by (pose proof (frac_le_fu a PWa) as [[X0 X1] _]; clear - X0 X1 FUa; lia).
  assert (Fb : frac_digits b = 0) by (pose proof (frac_le_fu b PWb) as [[X0 X1] _]; clear - X0 X1 FUb; lia).
  assert (S2 : significant_units 2 b).
  { destruct S1 as (x & k & Hx & Hk & E). exists x, k. split; [|auto]. change (base ^ 1) with base in Hx. change (base ^ 2) with (base * base). unfold base in *. clear - Hx. lia. }
  assert (Rm : div_room a b 4) by (apply C34_room; try assumption; lia). pose proof (room_sane _ _ _ Rm) as Sn.
  assert (Q36 : (Qabs (value a / value b) < pow10 36)%Q).
  { rewrite Qabs_quotient by exact Nb. apply Qlt_shift_div_r; [lra|]. eapply Qlt_le_trans; [exact A36|]. pose proof (pow10_pos 36) as P. set (u := pow10 36) in *. set (w := Qabs (value b)) in *. clearbody u w. clear - P LB. nra. }
  destruct (C35_division_returns_partial m a b res 4 PWa PWb Nb (or_introl (conj S2 (fun _ => S1))) ltac:(lia) ltac:(lia) Rm) as ([rs q] & HD).
  assert (OK : rs = Ok tt).
  { destruct rs as [[]|e]; [reflexivity|]. exfalso. refine (proj1 (C34_overflow_iff m a b res 4 PWa PWb Nb ltac:(lia) Rm) _ e q HD). eapply Qlt_le_trans; [exact Q36|]. apply pow10_le. lia. }
  subst rs. destruct (C34_truncated_quotient_partial m a b res 4 q PWa PWb Nb (or_introl S2) ltac:(lia) Sn HD) as (V & Wq & Cq & Nq & Zq & _).
  assert (Shape : iu q <= 6 /\ (f < frac_digits q \/ (value a == 0)%Q)).
  { destruct (Qeq_dec (value a) 0) as [Va|Va].
    - rewrite (DivQ.div_to_zero m a b res 4 PWa PWb Va Nb) in HD. injection HD as <-. split; [vm_compute; discriminate|]. right. exact Va.
    - destruct (C34_quotient_units_partial m a b res 4 q PWa PWb Va Nb (or_introl S2) ltac:(lia) Sn HD) as (U1 & U2 & U3).
      assert (IQ : iu q <= 6). { apply (power_units (Qabs (value a / value b)) (iu q) 6); [|lia|exact U2]. eapply Qlt_le_trans; [exact Q36|]. apply pow10_le. lia. }
      split; [exact IQ|]. left. rewrite U3. pose proof (wf_counts q Wq).
      assert (1 <= units_for (frac_digits a + frac_digits b + 4)) by (unfold units_for; apply Z.div_le_lower_bound; lia). clear - IQ H H0 Hf. lia. }
  destruct Shape as [IQ FQ].
  assert (Hrel : f < frac_digits q \/ nohidden q) by (right; exact Nq).
  assert (U1 : units_for f <= 1) by (unfold units_for; apply Z.lt_succ_r, Z.div_lt_upper_bound; lia).
  assert (RV : (round_at (value q) f == round_at (value a / value b) f)%Q).
  { destruct FQ as [FQ|FQ]; [rewrite (round_at_comp _ _ f V); apply round_truncate; lia|].
    apply round_at_comp. rewrite V. transitivity (truncate_at 0 (frac_digits q)); [apply truncate_at_comp; rewrite FQ; unfold Qdiv; ring|]. rewrite FQ. unfold truncate_at. rewrite (truncate_comp _ 0) by ring. change (truncate 0) with 0. unfold Qdiv. ring. }
  assert (B47 : (Qabs (round_at (value q) f) < pow10 47)%Q).
  { pose proof (round_at_close (value q) f) as C. assert (P : (pow10 (- f) <= 1)%Q) by (rewrite <- pow10_0; apply pow10_le; lia).
    assert (T : (Qabs (round_at (value q) f) <= Qabs (round_at (value q) f - value q) + Qabs (value q))%Q).
    { eapply Qle_trans; [|apply Qabs_triangle]. setoid_replace (round_at (value q) f - value q + value q)%Q with (round_at (value q) f) by ring. apply Qle_refl. }
    assert (QB : (Qabs (value q) < pow10 36)%Q).
    { eapply Qle_lt_trans; [|exact Q36]. rewrite V. clear. set (x := (value a / value b)%Q). clearbody x. destruct (Qlt_le_dec x 0) as [N|N].
      - assert (P : (0 <= - x)%Q) by lra. destruct (truncate_at_pos (- x) (frac_digits q) P) as (A1 & A2 & _). rewrite (truncate_at_comp x (- - x)) by ring. rewrite truncate_at_opp, Qabs_opp, (Qabs_pos _ A1), (Qabs_neg x) by lra. exact A2.
      - destruct (truncate_at_pos x (frac_digits q) N) as (A1 & A2 & _). rewrite (Qabs_pos _ A1), (Qabs_pos x N). exact A2. }
    assert (X : (pow10 36 + 1 <= pow10 47)%Q) by (vm_compute; discriminate).
    set (u := pow10 36) in *. set (v := pow10 47) in *. set (w := pow10 (- f)) in *. clearbody u v w. lra. }
  assert (B : (Qabs (round_at (value q) f) < pow10 (9 * (9 - units_for f)))%Q) by (eapply Qlt_le_trans; [exact B47|apply pow10_le; lia]).
  assert (F127 : 0 <= f <= 127) by (clear - Hf; lia). assert (S9 : iu q + units_for f <= 9) by (clear - IQ U1; lia).
  destruct (proj2 (C38_round_to_returns_iff_room m q res' f Wq F127 Hrel) (conj S9 B)) as (r & HR).
  destruct (round_to_spec_ret m q res' f r Wq F127 Hrel HR) as (Wr & Vr & Fr & _ & Nr & CC & TT).
  exists q, r. split; [exact HD|]. split; [exact HR|]. split; [exact V|]. split; [exact FQ|]. split; [exact Wq|]. split; [exact Nq|]. split; [rewrite Vr; exact RV|]. split; [exact Fr|]. split; [exact Wr|]. split; [exact Nr|].
  split; [exact (CC Cq)|]. split.
  - destruct FQ as [FQ|FQ]; [exact (rounded_tight m q res' f r Wq ltac:(clear - Hf FQ; lia) HR)|].
    assert (EZ : q = zero) by (rewrite (DivQ.div_to_zero m a b res 4 PWa PWb FQ Nb) in HD; congruence). subst q. apply TT. apply regular_zero.
  - eapply round_to_shape; [exact Wq|exact F127|exact HR|exact IQ|]. rewrite Vr. eapply Qlt_trans; [exact B47|]. vm_compute. reflexivity.
Qed.

Lemma one_count m n c : 0 < n < 10 ^ 9 -> from_u64 m n = Ret c -> wf c /\ (value c == inject_Z n)%Q /\ significant_units 1 c /\ fu c = 0.
Proof.
  intros Hn H. assert (B : n < 1000000000) by exact (proj2 Hn). destruct (Conv.from_u64_ok m n ltac:(lia)) as (d & E & (W & C & T & N & Z & V & F & _) & _). rewrite E in H. injection H as ->.
  assert (F0 : fu c = 0) by (unfold fu; rewrite F; reflexivity). split; [exact W|]. split; [exact V|]. split; [|exact F0].
  exists n, 0. split; [exact Hn|]. split; [lia|]. rewrite Z.pow_0_r, Z.mul_1_r. pose proof (Qabs_value_pow c W) as Q. rewrite V, F0 in Q. change (pow10 (- (9 * 0))) with 1%Q in Q.
  rewrite Qmult_1_r in Q. rewrite Qabs_pos in Q by (change 0%Q with (inject_Z 0); rewrite <- Zle_Qle; lia). clear - Q. unfold Qeq in Q. cbn in Q. lia.
Qed.
Lemma ok_app m st a st1 b st2 : ok_history m st a st1 -> ok_history m st1 b st2 -> ok_history m st (a ++ b) st2.
Proof. induction 1 as [|st c cs d st' P H IH]; intros K; [exact K|]. cbn [app]. econstructor; [exact P|apply IH, K]. Qed.

Definition none_small (i : nat) : bool := false.
Lemma frac_nonneg n : 0 <= numeral_frac n.
Proof. unfold numeral_frac. lia. Qed.
Lemma sum_calls ns : Forall input_ok ns -> Forall (ledger_call none_small) (sum_of ns).
Proof.
  induction 1 as [|n ns (A & B & C & D) F IH]; [constructor|]. cbn [sum_of flat_map app]. apply Forall_cons.
  - cbn [ledger_call]. split; [reflexivity|]. exists n. unfold none_small. split; [exact A|]. split; [reflexivity|]. split; [exact B|]. split; [split; [apply frac_nonneg|exact C]|exact D].
  - apply Forall_cons; [reflexivity|]. apply Forall_cons; [discriminate|exact IH].
Qed.
Lemma absolute_pos ns : (0 <= absolute_sum ns)%Q.
Proof. induction ns as [|n ns IH]; [apply Qle_refl|]. cbn [absolute_sum fold_right]. pose proof (Qabs_nonneg (numeral_value n)). fold (absolute_sum ns). lra. Qed.
Lemma absolute_bound ns : (Qabs (numeral_sum ns) <= absolute_sum ns)%Q.
Proof.
  induction ns as [|n ns IH]; [apply Qle_refl|]. cbn [absolute_sum numeral_sum fold_right]. fold (absolute_sum ns). fold (numeral_sum ns).
  eapply Qle_trans; [apply Qabs_triangle|]. lra.
Qed.
Lemma sum_run m ns : Forall input_ok ns -> forall x, (Qabs (x 1%nat) + absolute_sum ns < pow10 36)%Q -> exists x', ledger_run m x (sum_of ns) x' /\ (x' 1%nat == x 1%nat + numeral_sum ns)%Q.
Proof.
  induction 1 as [|n ns P F IH]; intros x B.
  - exists x. split; [constructor|]. change (numeral_sum []) with 0%Q. lra.
  - cbn [absolute_sum fold_right] in B. fold (absolute_sum ns) in B. pose proof (absolute_pos ns) as SP.
    set (v := numeral_value n) in *. set (x1 := write x 0%nat v). set (x2 := write x1 2%nat (x 1%nat + v)%Q). set (x3 := write x2 1%nat (x 1%nat + v)%Q).
    pose proof (Qabs_triangle (x 1%nat) v) as T. pose proof (Qabs_nonneg (x 1%nat)) as N1. pose proof (Qabs_nonneg v) as Nv.
    destruct (IH x3) as (x' & R & E).
    { change (x3 1%nat) with (x 1%nat + v)%Q. lra. }
    exists x'. split; [|rewrite E; change (x3 1%nat) with (x 1%nat + v)%Q; cbn [numeral_sum fold_right]; fold (numeral_sum ns); fold v; lra].
    cbn [sum_of flat_map app]. destruct P as (A & EX & C & D). assert (W : within_limits n) by (split; [exact EX|lia]).
    eapply l_cons with (v := v); [left; exists n; split; [exact A|]; split; [exact W|]; split; reflexivity|lra|intros; discriminate|]. fold x1.
    eapply l_cons with (v := (x 1%nat + v)%Q); [cbn; reflexivity|lra|intros; discriminate|]. fold x2.
    eapply l_cons with (v := (x 1%nat + v)%Q); [cbn; reflexivity|lra|intros; discriminate|]. exact R.
Qed.

(** ** C105 *)
Theorem C105_averages : forall m ns f, ns <> [] -> Z.of_nat (List.length ns) < 10 ^ 9 -> Forall input_ok ns -> (absolute_sum ns < pow10 36)%Q -> 0 <= f <= 8 ->
  exists st n q, ok_history m (fun _ => zero) (average_of ns f) st /\
    to_string m (st 5%nat) (-1) = Ret (numeral_bytes n) /\ canonical n /\ zlength (n_frac n) = f /\ (numeral_value n == round_at (numeral_mean ns) f)%Q /\
    to_string m (st 4%nat) (-1) = Ret (numeral_bytes q) /\ canonical q /\ (numeral_value q == truncate_at (numeral_mean ns) (zlength (n_frac q)))%Q /\
    (f < zlength (n_frac q) \/ (numeral_mean ns == 0)%Q).
Proof.
  intros m ns f Ne Len F B Hf. destruct (sum_run m ns F (fun _ => 0%Q)) as (x & R & E); [rewrite Qplus_0_l; exact B|]. rewrite Qplus_0_l in E.
  destruct (ledger_program m none_small (sum_of ns) (fun _ => zero) (fun _ => 0%Q) x (ready_zero none_small)) as (s & O & RD & EV); [intros i; reflexivity|apply sum_calls, F|exact R|].
  assert (Ln : 0 < Z.of_nat (List.length ns)) by (destruct ns; [congruence|cbn; lia]). set (k := Z.of_nat (List.length ns)) in *.
  assert (KB : k < 1000000000) by exact Len. destruct (Conv.from_u64_ok m k ltac:(lia)) as (c & EC & _). destruct (one_count m k c (conj Ln Len) EC) as (Wc & Vc & Sc & Fc).
  destruct (RD 1%nat) as [(W1 & _) [I1 F1]]. unfold none_small in I1, F1. assert (V1 : (value (s 1%nat) == numeral_sum ns)%Q) by (rewrite EV; exact E).
  assert (M : (value (s 1%nat) / value c == numeral_mean ns)%Q) by (unfold numeral_mean; rewrite V1, Vc; reflexivity).
  set (s1 := write s 3%nat c).
  destruct (rounded_division m (s 1%nat) c (s1 4%nat) (s1 5%nat) f W1 I1 F1) as (q & r & HD & HR & VQ & FQ & Wq & Nq & VR & FR & Wr & Nr & _); try assumption.
  { rewrite V1. eapply Qle_lt_trans; [apply absolute_bound|exact B]. }
  { rewrite Vc, Qabs_pos by (change 0%Q with (inject_Z 0); rewrite <- Zle_Qle; lia). change 1%Q with (inject_Z 1). rewrite <- Zle_Qle. lia. }
  set (s2 := write s1 4%nat q). set (s3 := write s2 5%nat r).
  destruct (C08_to_string_is_exact m r Wr Nr) as (n & Tn & Cn & _ & Ln' & Vn). destruct (C08_to_string_is_exact m q Wq Nq) as (n' & Tn' & Cn' & _ & Lq & Vn').
  exists s3, n, n'. split.
  - unfold average_of. eapply ok_app; [exact O|]. eapply ok_cons with (d := c); [cbn [perform]; fold k; rewrite EC; reflexivity|]. fold s1.
    eapply ok_cons with (d := q); [exact HD|]. fold s2. eapply ok_cons with (d := r); [|apply ok_nil]. transitivity (d <- round_to m q (s1 5%nat) f ;; Ret (Ok tt, d)); [reflexivity|]. rewrite HR. reflexivity.
  - change (s3 5%nat) with r. change (s3 4%nat) with q. split; [exact Tn|]. split; [exact Cn|]. split; [rewrite Ln'; exact FR|].
    split; [rewrite Vn, VR; apply round_at_comp; exact M|]. split; [exact Tn'|]. split; [exact Cn'|]. split; [rewrite Vn', Lq, VQ; apply truncate_at_comp; exact M|].
    rewrite Lq. destruct FQ as [FQ|FQ]; [left; exact FQ|right]. rewrite <- M, FQ. unfold Qdiv. ring.
Qed.
Print Assumptions C105_averages.

Example C105_example : let ns := [mknum None [1] true [1; 0] None; mknum (Some true) [] true [7] None; mknum None [2; 0] false [] (Some (false, Some true, [1]))] in
  map numeral_bytes ns = [bytes "1.10"; bytes "-.7"; bytes "20e-1"] /\ ns <> [] /\ Forall input_ok ns /\ (absolute_sum ns < pow10 36)%Q /\
  exists st, ok_history Debug (fun _ => zero) (average_of ns 2) st /\ to_string Debug (st 4%nat) (-1) = Ret (bytes "0.800000000") /\ to_string Debug (st 5%nat) (-1) = Ret (bytes "0.80").
Proof.
  cbv zeta. split; [vm_compute; reflexivity|]. split; [discriminate|]. split; [|split; [vm_compute; reflexivity|]].
  - repeat constructor; cbn; try lia; try (vm_compute; discriminate); try congruence; auto.
  - eexists. split; [unfold average_of; cbn [sum_of flat_map app]; repeat (eapply ok_cons; [vm_compute; reflexivity|]); apply ok_nil|]. split; vm_compute; reflexivity.
Qed.
