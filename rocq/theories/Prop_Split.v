(** * Property C107: splitting a sum into equal parts. *)
From Coq Require Import ZArith List Bool String Lia QArith Qabs Qround Lqa.
From Verif Require Import Rust Model_Base Model_Cmp Model_Round Model_Decimal Model_Arith Model_Serde Spec Spec_Div Spec_History Spec_Ledger Spec_Typed Spec_Split Lib Sign AddTo AddSubQ Basics Cmp QLib RoundQ MulQ MulLaws DivBasics DivQ DivG2 DivFit ParseMain ParseThms Conv History Laws Laws4
  Prop_Compare Prop_AddSub Prop_Conv Prop_Mul Prop_Print Prop_Parse Prop_Round Prop_Div Prop_Exact Prop_Exact2 Prop_Laws Prop_Laws2 Prop_Laws4 Prop_Ledger Prop_Typed Prop_Average Tests Witness.
Import ListNotations.
Open Scope Z_scope.

(** Rounding to fewer digits repairs a decimal that declares too few integral digits. *)
Theorem C107_rounding_repairs : forall m q res f r, wf q -> clean q -> 0 <= f < frac_digits q -> round_to m q res f = Ret r -> regular r.
Proof.
  intros m q res f r W C Hf H. pose proof (wf_counts q W) as K. destruct (round_to_spec_ret m q res f r W ltac:(lia) (or_introl (proj2 Hf)) H) as (Wr & _ & _ & _ & Nr & CC & _).
  rg; [exact Wr|exact (CC C)|exact (rounded_tight m q res f r W Hf H)|exact Nr].
Qed.
Print Assumptions C107_rounding_repairs.

Definition split_vars (c r : fd) : state := fun i => match i with 1%nat => c | 3%nat => r | _ => zero end.
Definition split_int (i : nat) : Z := match i with 1%nat => 1 | 3%nat => 6 | 4%nat => 7 | _ => 5 end.
Definition split_frac (i : nat) : Z := match i with 1%nat => 0 | 3%nat => 1 | 4%nat => 1 | _ => 3 end.
Lemma split_sizes : sizes_ok split_int split_frac.
Proof. intros [|[|[|[|[|k]]]]]; cbn; lia. Qed.
Lemma part_times_count m c r : regular c -> iu c <= 1 -> fu c <= 0 -> (1 <= Qabs (value c))%Q -> regular r -> iu r <= 6 -> fu r <= 1 ->
  (Qabs (value c * value r) < pow10 63)%Q ->
  exists p, mul_to m c r zero = Ret (Ok tt, p) /\ (value p == value c * value r)%Q /\ regular p /\ iu p <= 7 /\ fu p <= 1.
Proof.
  intros RC IC FC LC RR IR FR B. destruct (sized_step m split_int split_frac (split_vars c r) (Mul 1 3 4) (value c * value r) split_sizes) as (p & E & V & P).
  - assert (Z0 : forall k, regular zero /\ within (split_int k) (split_frac k) zero).
    { intros k. split; [apply regular_zero|]. destruct (split_sizes k) as (K1 & K2 & _). unfold within. change (iu zero) with 1. change (fu zero) with 0. lia. }
    intros [|[|[|[|k]]]]; [exact (Z0 0%nat)|split; [exact RC|split; [exact IC|exact FC]]|exact (Z0 2%nat)|split; [exact RR|split; [exact IR|exact FR]]|exact (Z0 (S (S (S (S k)))))].
  - cbn. lia.
  - cbn. reflexivity.
  - exact B.
  - intros i j (k & X) _. injection X as <- <- _. right. right. exact LC.
  - destruct (P 4%nat) as [Rp [Ip Fp]]. exists p. split; [exact E|]. split; [exact V|]. split; [exact Rp|]. split; assumption.
Qed.

Lemma bill_units t f : numeral_ok t -> numeral_frac t <= f -> 0 <= f -> exists k, (numeral_value t == inject_Z k * pow10 (- f))%Q.
Proof.
  intros OK F Hf. unfold numeral_frac in F. set (e := numeral_exp t) in *. set (l := zlength (n_frac t)) in *.
  assert (X : (pow10 (e - l) == inject_Z (10 ^ (e - l + f)) * pow10 (- f))%Q).
  { rewrite <- pow10_nonneg by lia. rewrite <- pow10_add. replace (e - l + f + - f) with (e - l) by lia. reflexivity. }
  set (D := digits_value (n_int t ++ n_frac t)). exists ((if is_minus (n_sign t) then - D else D) * 10 ^ (e - l + f)).
  unfold numeral_value. fold e l D. rewrite X, inject_Z_mult. destruct (is_minus (n_sign t)); [rewrite inject_Z_opp|]; ring.
Qed.

(** ** C107 *)
Theorem C107_splitting : forall m t n f, bill_ok t -> 0 < n < 10 ^ 9 -> 0 <= f <= 8 ->
  exists st s r, ok_history m (fun _ => zero) (split t n f) st /\
    to_string m (st 3%nat) (-1) = Ret (numeral_bytes s) /\ canonical s /\ zlength (n_frac s) = f /\
    to_string m (st 5%nat) (-1) = Ret (numeral_bytes r) /\ canonical r /\
    (numeral_value s == round_at (numeral_value t / inject_Z n) f)%Q /\
    (inject_Z n * numeral_value s + numeral_value r == numeral_value t)%Q /\
    (2 * Qabs (numeral_value r) <= inject_Z n * pow10 (- f))%Q /\
    (numeral_frac t <= f -> exists k, (numeral_value r == inject_Z k * pow10 (- f))%Q /\ 2 * Z.abs k <= n).
Proof.
  intros m t n f (OK & EX & FT & IT) Hn Hf.
  assert (WL : within_limits t) by (split; [exact EX|lia]).
  destruct (parse_accepts m zero true t wf_zero OK WL) as (a & EA & PA).
  assert (RA : regular a) by (refine (careful_step m (fun _ => zero) (Parse 0 (numeral_bytes t) true) (Ok tt) a (fun _ => regular_zero) _ EA); cbn [careful_call simple_call]; split; [rewrite numeral_mantissa_digits by exact OK; unfold numeral_digits in IT; lia|reflexivity]).
  pose proof (p_value _ _ _ PA) as VA. assert (DA : int_digits a <= 9 * 4 /\ frac_digits a <= 9 * 1) by (rewrite (p_int _ _ _ PA), (p_frac _ _ _ PA); lia).
  assert (B36 : (Qabs (numeral_value t) < pow10 36)%Q) by (rewrite <- VA; eapply Qlt_le_trans; [apply tight_bound; apply RA|apply pow10_le; lia]).
  destruct (within_digits 4 1 a (proj1 RA) (proj1 DA) (proj2 DA)) as [IA FA].
  assert (NB : n < 1000000000) by exact (proj2 Hn).
  destruct (Conv.from_u64_ok m n ltac:(lia)) as (c & EC & (Wc0 & Cc & Tc & Nc & _) & _). destruct (one_count m n c Hn EC) as (Wc & Vc & Sc & Fc).
  assert (RC : regular c) by (rg; assumption).
  assert (IC : int_digits c <= 9 * 1) by (apply (from_u64_size m 1 n c); [lia|lia|exact NB|exact EC]).
  assert (IC1 : iu c <= 1) by (unfold iu; unfold units_for; clear - IC; Z.to_euclidean_division_equations; lia).
  assert (Pn : (1 <= inject_Z n)%Q) by (change 1%Q with (inject_Z 1); rewrite <- Zle_Qle; lia).
  assert (LC : (1 <= Qabs (value c))%Q) by (rewrite Vc, Qabs_pos by lra; exact Pn).
  destruct (rounded_division m a c zero zero f (proj1 RA) ltac:(lia) ltac:(lia)) as (q & r & HD & HR & _ & _ & _ & _ & VR & FR & Wr & Nr & Cr & Tr & Ir); try assumption.
  { rewrite VA. exact B36. }
  assert (RR : regular r) by (rg; assumption).
  set (x := numeral_value t) in *. set (w := pow10 (- f)).
  assert (Wp : (0 < w)%Q) by apply pow10_pos. assert (W1 : (w <= 1)%Q) by (unfold w; rewrite <- pow10_0; apply pow10_le; lia).
  assert (VS : (value r == round_at (x / inject_Z n) f)%Q) by (rewrite VR; apply round_at_comp; rewrite VA, Vc; reflexivity).
  assert (CL : (Qabs (x - inject_Z n * value r) <= inject_Z n * (w * (1 # 2)))%Q).
  { pose proof (round_at_close (x / inject_Z n) f) as C. fold w in C. rewrite <- VS in C.
    setoid_replace (x - inject_Z n * value r)%Q with (inject_Z n * - (value r - x / inject_Z n))%Q by (field; lra).
    rewrite Qabs_Qmult, Qabs_opp, (Qabs_pos (inject_Z n)) by lra. rewrite (Qmult_comm (inject_Z n) (Qabs _)), (Qmult_comm (inject_Z n) (w * _)). apply Qmult_le_compat_r; [exact C|lra]. }
  assert (PB : (Qabs (value c * value r) < pow10 37)%Q).
  { rewrite Vc. assert (T : (Qabs (inject_Z n * value r) <= Qabs (x - inject_Z n * value r) + Qabs x)%Q).
    { setoid_replace (Qabs (x - inject_Z n * value r)) with (Qabs (inject_Z n * value r - x)) by (rewrite <- Qabs_opp; apply Qabs_wd; ring).
      eapply Qle_trans; [|apply Qabs_triangle]. setoid_replace (inject_Z n * value r - x + x)%Q with (inject_Z n * value r)%Q by ring. apply Qle_refl. }
    assert (N9 : (inject_Z n <= inject_Z (10 ^ 9))%Q) by (rewrite <- Zle_Qle; lia).
    assert (X : (pow10 36 + inject_Z (10 ^ 9) <= pow10 37)%Q) by (vm_compute; discriminate).
    assert (Y : (inject_Z n * (w * (1 # 2)) <= inject_Z n)%Q) by nra.
    set (u := pow10 36) in *. set (v := pow10 37) in *. set (z := inject_Z (10 ^ 9)) in *. set (y := (inject_Z n * (w * (1 # 2)))%Q) in *. set (g := (inject_Z n * value r)%Q) in *. clearbody u v w z y g. lra. }
  assert (Fr1 : fu r <= 1) by (unfold fu; rewrite FR; apply (units_round f 1); lia).
  destruct (part_times_count m c r RC IC1 ltac:(lia) LC RR Ir Fr1) as (p & EP & VP & RP & IP & FP).
  { eapply Qlt_le_trans; [exact PB|]. apply pow10_le. lia. }
  assert (SD : exists d, sub_to m a p zero = Ret (Ok tt, d) /\ wf d /\ clean d /\ nohidden d /\ (value d == value a - value p)%Q).
  { pose proof RA as (Wa & Ca & _ & Na). pose proof RP as (Wpp & Cp & _ & Np).
    destruct (C80_every_difference m a p zero Wa Wpp Ca Cp) as [(_ & d & E & W & C & V & _ & _ & N & _)|(N & _)].
    - exists d. split; [exact E|]. split; [exact W|]. split; [exact C|]. split; [exact (N Na Np)|exact V].
    - exfalso. apply N. right. right. split; [lia|]. right. destruct (Z.le_gt_cases (Z.max (iu a) (iu p)) 6) as [L|L]; [left; lia|right].
      assert (Z.max (iu a) (iu p) = 7) as -> by lia. rewrite VP, VA. assert (X : (pow10 36 + pow10 37 < pow10 (9 * 7))%Q) by (vm_compute; reflexivity).
      set (u := pow10 36) in *. set (v := pow10 37) in *. set (z := pow10 (9 * 7)) in *. clearbody u v z. lra. }
  destruct SD as (d & ED & Wd & Cd & Nd & VD).
  destruct (C08_to_string_is_exact m r Wr Nr) as (s & Ts & Cs & _ & Ls & Vs). destruct (C08_to_string_is_exact m d Wd Nd) as (s' & Ts' & Cs' & _ & _ & Vs').
  set (s1 := write (fun _ => zero) 0%nat a). set (s2 := write s1 1%nat c). set (s3 := write s2 2%nat q). set (s4 := write s3 3%nat r). set (s5 := write s4 4%nat p). set (s6 := write s5 5%nat d).
  assert (VX : (value d == x - inject_Z n * value r)%Q) by (rewrite VD, VP, VA, Vc; reflexivity).
  exists s6, s, s'. split.
  - unfold split. eapply ok_cons with (d := a); [exact EA|]. fold s1. eapply ok_cons with (d := c); [cbn [perform]; rewrite EC; reflexivity|]. fold s2.
    eapply ok_cons with (d := q); [exact HD|]. fold s3. eapply ok_cons with (d := r); [transitivity (d <- round_to m q zero f ;; Ret (Ok tt, d)); [reflexivity|rewrite HR; reflexivity]|]. fold s4.
    eapply ok_cons with (d := p); [exact EP|]. fold s5. eapply ok_cons with (d := d); [exact ED|]. apply ok_nil.
  - change (s6 3%nat) with r. change (s6 5%nat) with d. split; [exact Ts|]. split; [exact Cs|]. split; [rewrite Ls; exact FR|]. split; [exact Ts'|]. split; [exact Cs'|].
    split; [rewrite Vs; exact VS|]. split; [rewrite Vs, Vs', VX; ring|]. rewrite Vs', VX. split; [setoid_replace (inject_Z n * w)%Q with (2 * (inject_Z n * (w * (1 # 2))))%Q by ring; lra|].
    intros F. destruct (bill_units t f OK F ltac:(lia)) as (k & K). fold x w in K. set (g := round_away (x / inject_Z n * pow10 f)).
    assert (KV : (x - inject_Z n * value r == inject_Z (k - n * g) * w)%Q).
    { rewrite VS, K at 1. unfold round_at. fold g w. unfold Z.sub. rewrite inject_Z_plus, inject_Z_opp, inject_Z_mult. ring. }
    exists (k - n * g). split; [rewrite Vs', VX; exact KV|]. rewrite KV, Qabs_Qmult, (Qabs_pos w) in CL by lra.
    assert (Q2 : (inject_Z (2 * Z.abs (k - n * g)) <= inject_Z n)%Q).
    { rewrite inject_Z_mult. change (inject_Z (Z.abs (k - n * g))) with (Qabs (inject_Z (k - n * g))). set (y := Qabs (inject_Z (k - n * g))) in *.
      apply (Qmult_lt_0_le_reg_r _ _ w Wp). change (inject_Z 2) with 2%Q. clearbody y w. lra. }
    rewrite <- Zle_Qle in Q2. exact Q2.
Qed.
Print Assumptions C107_splitting.

(** One hundred, three people: everybody pays 33.33, and one cent is left. *)
Example C107_example : let t := mknum None [1; 0; 0] false [] None in
  numeral_bytes t = bytes "100" /\ bill_ok t /\
  exists st, ok_history Debug (fun _ => zero) (split t 3 2) st /\ to_string Debug (st 3%nat) (-1) = Ret (bytes "33.33") /\ to_string Debug (st 5%nat) (-1) = Ret (bytes "0.01").
Proof.
  cbv zeta. split; [vm_compute; reflexivity|]. split.
  - repeat constructor; cbn; try lia; try (vm_compute; discriminate); try congruence; auto.
  - eexists. split; [unfold split; repeat (eapply ok_cons; [vm_compute; reflexivity|]); apply ok_nil|]. split; vm_compute; reflexivity.
Qed.

(** The quotient 5000000000 / 10 declares too few digits and nine times it is wrong; once rounded
    to two places it is right (both builds). *)
Example C107_repair : exists q r w p, (forall m, div_to m (dec "5000000000") (dec "10") zero 4 = Ret (Ok tt, q)) /\ wf q /\ clean q /\ 0 <= 2 < frac_digits q /\ ~ tight q /\
  (forall m, mul_to m q (dec "9") zero = Ret (Ok tt, w)) /\ (value w == value (dec "500000000"))%Q /\
  (forall m, round_to m q zero 2 = Ret r) /\ regular r /\ (forall m, mul_to m r (dec "9") zero = Ret (Ok tt, p)) /\ (value p == value (dec "4500000000"))%Q.
Proof.
  do 4 eexists. split; [intros [|]; vm_compute; reflexivity|]. split; [wfd|]. split; [cleand|]. split; [vm_compute; split; [discriminate|reflexivity]|]. split; [intros T; vm_compute in T; discriminate T|].
  split; [intros [|]; vm_compute; reflexivity|]. split; [vm_compute; reflexivity|]. split; [intros [|]; vm_compute; reflexivity|]. split; [hyps|]. split; [intros [|]; vm_compute; reflexivity|]. vm_compute. reflexivity.
Qed.
