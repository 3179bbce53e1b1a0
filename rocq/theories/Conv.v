(** * Proofs about the integer conversions and the hash (src/decimal.rs). *)
From Coq Require Import ZArith List Bool Lia QArith Qabs Qround Lqa.
From Coq Require Import ZifyBool ZifyNat.
Import ListNotations.
From Verif Require Import Rust Tables Model_Base Model_Cmp Model_Round Model_Arith Model_Decimal Spec Lib Cmp AddSub Sign AddTo AddSubQ Basics QLib Round RoundTo RoundQ Witness.
Open Scope Z_scope.
Ltac Zify.zify_post_hook ::= Z.div_mod_to_equations.

(** ** From *)
Lemma from_u64_loop_ok m fuel src l i : uok l -> zlen l = 9 -> (forall k, i <= k -> zn l k = 0) ->
  0 <= i -> i + Z.of_nat fuel <= 9 -> 0 <= src < base ^ Z.of_nat fuel -> src <= 18446744073709551615 ->
  exists l' i', from_u64_loop m (S fuel) src l i = Ret (l', i') /\ uok l' /\ zlen l' = 9 /\ i <= i' <= 9 /\
    (forall k, i' <= k -> zn l' k = 0) /\ sg l' 0 i' = sg l 0 i + base ^ i * src.
Proof.
  revert src l i; induction fuel as [|fuel IH]; intros src l i Hu Hl Hz Hi Hf Hs H64.
  - assert (src = 0) by (cbn in Hs; lia). subst src. exists l, i. cbn. repeat split; auto; lia.
  - change (from_u64_loop m (S (S fuel)) src l i) with
      (if src =? 0 then Ret (l, i) else
        let q := src / UNIT in
        p <- u64 m (q * UNIT) ;;
        r <- u64 m (src - p) ;;
        l <- set l i (as_i32 r) ;;
        from_u64_loop m (S fuel) q l (i + 1)).
    destruct (Z.eqb_spec src 0) as [->|Hn].
    + exists l, i. repeat split; auto; lia.
    + cbv zeta. set (q := src / UNIT). set (rr := src mod UNIT).
      assert (Hq : src = q * UNIT + rr /\ 0 <= rr < UNIT /\ 0 <= q /\ q < base ^ Z.of_nat fuel).
      { subst q rr. change UNIT with base. pose proof (Z.div_mod src base ltac:(discriminate)) as E. pose proof (Z.mod_pos_bound src base ltac:(reflexivity)).
        split; [lia|]. split; [assumption|]. split; [apply Z.div_pos; lia|]. apply Z.div_lt_upper_bound; [reflexivity|].
        replace (Z.of_nat (S fuel)) with (Z.of_nat fuel + 1) in Hs by lia. rewrite base_S in Hs by lia. lia. }
      clearbody q rr. unfold UNIT in *. destruct Hq as (E & Hr & Hq0 & Hq).
      rewrite u64_ok by lia. mret. rewrite u64_ok by lia. mret.
      replace (src - q * 1000000000) with rr by lia. rewrite as_i32_id by lia.
      rewrite set_ok by lia. mret.
      destruct (IH q (upd (Z.to_nat i) rr l) (i + 1)) as (l' & i' & E1 & U' & L' & HI & Z' & S'); try lia.
      * apply uok_upd; [assumption|unfold base; lia].
      * rewrite zlen_upd; assumption.
      * intros k Hk. rewrite zn_upd_ne by lia. apply Hz. lia.
      * exists l', i'. split; [exact E1|]. repeat (split; [solve [assumption|lia]|]).
        rewrite S'. rewrite sg_snoc by lia. rewrite Z.add_0_l, zn_upd_eq by lia. rewrite sg_upd_out by lia.
        rewrite (base_S i Hi). rewrite E. change 1000000000 with base. ring.
Qed.

Definition integer_decimal (d : fd) (n : Z) : Prop :=
  wf d /\ clean d /\ tight d /\ nohidden d /\ ~ negzero d /\
  (value d == inject_Z n)%Q /\ frac_digits d = 0 /\ neg d = (n <? 0).

Lemma value_int d : fu d = 0 -> (value d == inject_Z (smag d))%Q.
Proof. intros E. unfold value, smag. rewrite E. reflexivity. Qed.

Lemma from_u64_ok m n : 0 <= n <= 18446744073709551615 -> exists d, from_u64 m n = Ret d /\ integer_decimal d n /\ fd_intg d = 9 * iu d.
Proof.
  intros H. unfold from_u64.
  destruct (from_u64_loop_ok m 9 n zero_units 0) as (l & i & E & U & L & Hi & Hz & HS).
  - apply uok_repeat0.
  - reflexivity.
  - intros; apply zn_zero_units.
  - lia.
  - lia.
  - change (Z.of_nat 9) with 9. split; [lia|]. apply Z.le_lt_trans with (m := 18446744073709551615); [lia|reflexivity].
  - lia.
  - change (fd_lsu zero) with zero_units. rewrite E. mret. eexists; split; [reflexivity|].
    rewrite as_i8_9 by lia. change (fd_frac zero) with 0. set (d := mkfd (9 * i) 0 l).
    assert (Di : int_digits d = 9 * i) by (apply int_digits_9; lia).
    assert (Diu : iu d = i) by (unfold iu; rewrite Di; apply units_for_9).
    assert (Dfu : fu d = 0) by reflexivity.
    rewrite Z.pow_0_r, (sg_nil zero_units 0 0) in HS by lia.
    assert (W : wf d) by (constructor; rewrite ?Diu, ?Dfu; cbn [d fd_lsu fd_intg fd_frac]; try lia; [apply zlen_9; assumption|exact U]).
    assert (M : magnitude d = n) by (rewrite magnitude_sg, Diu, Dfu, Z.add_0_r; cbn [d fd_lsu]; lia).
    assert (N : neg d = false) by (unfold neg, d; cbn [fd_intg]; lia).
    split; [|rewrite Diu; reflexivity]. repeat apply conj; auto.
    + apply clean_intro; rewrite Diu, Dfu; cbn [d fd_lsu]; [|lia]. intros k Hk. apply Hz. lia.
    + apply tight_full; [assumption|]. rewrite Di, Diu. reflexivity.
    + unfold nohidden. rewrite Dfu. apply Z.mod_1_r.
    + intros [C _]. congruence.
    + rewrite value_int by assumption. unfold smag. rewrite N, M. reflexivity.
    + rewrite N. lia.
Qed.

Lemma min_i64_int : integer_decimal MIN_I64 (-9223372036854775808).
Proof. repeat apply conj; try hyps; try reflexivity. Qed.
Lemma max_i64_int : integer_decimal MAX_I64 9223372036854775807.
Proof. repeat apply conj; try hyps; try reflexivity. Qed.
Lemma max_u64_int : integer_decimal MAX_U64 18446744073709551615.
Proof. repeat apply conj; try hyps; try reflexivity. Qed.

Lemma from_i64_ok m n : -9223372036854775808 <= n <= 9223372036854775807 -> exists d, from_i64 m n = Ret d /\ integer_decimal d n.
Proof.
  intros H. unfold from_i64. destruct (Z.eqb_spec n (-9223372036854775808)) as [->|Hn].
  - eexists; split; [reflexivity|apply min_i64_int].
  - destruct (Z.ltb_spec n 0).
    + rewrite i64_ok by lia. mret. rewrite as_usize_id by lia.
      destruct (from_u64_ok m (- n) ltac:(lia)) as (d & E & (W & C & T & NH & NZ & V & F & N) & _). rewrite E. mret.
      eexists; split; [reflexivity|].
      pose proof (set_neg_same d (wf_intg d W)) as Sm.
      assert (V' : (value (set_neg d) == inject_Z n)%Q).
      { rewrite value_set_neg, V by assumption. rewrite Qabs_pos; [rewrite inject_Z_opp; ring|].
        change 0%Q with (inject_Z 0). rewrite <- Zle_Qle. lia. }
      assert (N' : neg (set_neg d) = true) by (apply set_neg_neg, W).
      repeat apply conj; eauto using set_neg_wf, same_clean, same_tight, same_nohidden.
      * intros [_ HZ]. rewrite V' in HZ. change 0%Q with (inject_Z 0) in HZ. apply (proj1 (inject_Z_injective _ _)) in HZ. lia.
      * rewrite N'. lia.
    + rewrite as_usize_id by lia. destruct (from_u64_ok m n ltac:(lia)) as (d & E & I & _). exists d. auto.
Qed.

(** ** as_i64, as_u64 *)
Lemma units3 l : uok l -> zlen l = 9 -> sg l 0 9 < base ^ 3 -> sg l 0 9 = zn l 0 + base * zn l 1 + base ^ 2 * zn l 2.
Proof.
  intros U L H. change 9 with (3 + 6) in *. rewrite sg_app in * by lia.
  pose proof (sg_nonneg l (0 + 3) 6 U). pose proof (sg_bound l 0 3 U ltac:(lia)).
  assert (E : sg l (0 + 3) 6 = 0) by nia. rewrite E.
  assert (S3 : sg l 0 3 = zn l 0 + base * zn l 1 + base ^ 2 * zn l 2).
  { unfold sg. change (Z.to_nat 3) with 3%nat. cbn [seg]. change (0 + 1) with 1. change (1 + 1) with 2.
    change (base ^ 2) with (base * base). ring. }
  rewrite S3. ring.
Qed.

Lemma magnitude_all d : wf d -> clean d -> magnitude d = sg (fd_lsu d) 0 9.
Proof.
  intros W C. pose proof (wf_counts d W). rewrite magnitude_sg.
  set (n := iu d + fu d) in *.
  assert (E : sg (fd_lsu d) 0 9 = sg (fd_lsu d) 0 (n + (9 - n))) by (f_equal; lia). rewrite E, (sg_app _ 0 n) by lia.
  rewrite (sg_0 _ (0 + n)) by (intros k Hk; apply (clean_elim d W C); lia). lia.
Qed.

Lemma lsu_to_i64_ok m d : wf d -> clean d -> fu d = 0 -> -9223372036854775808 <= smag d <= 9223372036854775807 ->
  lsu_to_i64 m d = Ret (smag d).
Proof.
  intros W C F H. pose proof (magnitude_nonneg d W) as M0. pose proof (magnitude_all d W C) as ML.
  assert (MB : magnitude d <= 9223372036854775808) by (unfold smag in H; destruct (neg d); lia).
  pose proof (wf_uok d W) as U. pose proof (wf_zlen d W) as L.
  rewrite units3 in ML by (auto; rewrite <- ML; change (base ^ 3) with 1000000000000000000000000000; lia).
  unfold lsu_to_i64. rewrite !get_ok by lia. mret. mret. mret. cst.
  pose proof (uok_zn (fd_lsu d) 0 U) as H0. pose proof (uok_zn (fd_lsu d) 1 U) as H1. pose proof (uok_zn (fd_lsu d) 2 U) as H2.
  set (x := zn (fd_lsu d) 0) in *. set (y := zn (fd_lsu d) 1) in *. set (z := zn (fd_lsu d) 2) in *. clearbody x y z.
  change (1000000000 ^ 2) with 1000000000000000000 in ML. unfold base in *.
  repeat (rewrite i64_ok by lia; try mret).
  rewrite is_neg_ok by apply W. unfold smag in *. destruct (neg d).
  - rewrite i32_ok by lia. mret. repeat (rewrite i64_ok by lia; try mret). f_equal. lia.
  - repeat (rewrite i64_ok by lia; try mret). f_equal. lia.
Qed.
Lemma lsu_to_u64_ok m d : wf d -> clean d -> fu d = 0 -> magnitude d <= 18446744073709551615 ->
  lsu_to_u64 m d = Ret (magnitude d).
Proof.
  intros W C F MB. pose proof (magnitude_nonneg d W) as M0. pose proof (magnitude_all d W C) as ML.
  pose proof (wf_uok d W) as U. pose proof (wf_zlen d W) as L.
  rewrite units3 in ML by (auto; rewrite <- ML; change (base ^ 3) with 1000000000000000000000000000; lia).
  unfold lsu_to_u64. rewrite !get_ok by lia. mret. mret. mret. cst.
  pose proof (uok_zn (fd_lsu d) 0 U) as H0. pose proof (uok_zn (fd_lsu d) 1 U) as H1. pose proof (uok_zn (fd_lsu d) 2 U) as H2.
  set (x := zn (fd_lsu d) 0) in *. set (y := zn (fd_lsu d) 1) in *. set (z := zn (fd_lsu d) 2) in *. clearbody x y z.
  change (1000000000 ^ 2) with 1000000000000000000 in ML. unfold base in *.
  rewrite !as_usize_id by lia.
  repeat (rewrite u64_ok by lia; try mret). f_equal. lia.
Qed.

Lemma cmp_const m a c n : wf a -> integer_decimal c n -> n <> 0 -> cmp m a c = Ret (Qcompare (value a) (inject_Z n)).
Proof.
  intros Ha (W & _ & _ & _ & _ & V & _ & N) Hn. rewrite cmp_numeric by assumption. f_equal.
  rewrite (Qcompare_comp _ _ (Qeq_refl (value a)) _ _ V).
  destruct (Qcompare (value a) (inject_Z n)) eqn:E; try reflexivity. apply Qeq_alt in E.
  pose proof (magnitude_nonneg a Ha). unfold value in E.
  assert (P : 0 < Zpos (Z.to_pos (base ^ fu a))) by lia.
  unfold Qeq, inject_Z in E. cbn [Qnum Qden] in E. rewrite N.
  destruct (neg a) eqn:A, (Z.ltb_spec n 0); try reflexivity; nia.
Qed.

Lemma round_at_0 q : (round_at q 0 == inject_Z (round_away q))%Q.
Proof.
  unfold round_at. change (pow10 (- 0)) with 1%Q. rewrite (round_away_comp (q * pow10 0) q); [ring|].
  change (pow10 0) with 1%Q. ring.
Qed.

(** The rounded integer, as the code computes it. *)
Lemma to_integer m a : wf a -> clean a -> (Qabs (value a) <= inject_Z 18446744073709551615)%Q ->
  exists t, (if fu a >? 0 then round_to m a zero 0 else Ret a) = Ret t /\ wf t /\ clean t /\ fu t = 0 /\ neg t = neg a /\
    smag t = round_away (value a).
Proof.
  intros Ha Ca B. pose proof (wf_counts a Ha). destruct (Z.gtb_spec (fu a) 0) as [G|G].
  - assert (HF : 0 < frac_digits a) by (unfold fu, units_for in G; lia).
    assert (R : exists d, round_to m a zero 0 = Ret d).
    { apply (round_to_returns m a zero 0 Ha ltac:(lia) (or_introl HF)). change (units_for 0) with 0. split; [lia|].
      apply Qle_lt_trans with (y := (Qabs (value a) + (1 # 2))%Q).
      - pose proof (round_at_close (value a) 0) as C. change (pow10 (- 0)) with 1%Q in C.
        pose proof (Qabs_triangle (round_at (value a) 0 - value a) (value a)) as T.
        assert (E : (round_at (value a) 0 - value a + value a == round_at (value a) 0)%Q) by ring. rewrite E in T. lra.
      - eapply Qle_lt_trans; [apply Qplus_le_l; exact B|]. reflexivity. }
    destruct R as [d E]. exists d. split; [exact E|].
    destruct (round_to_spec_ret m a zero 0 d Ha ltac:(lia) (or_introl HF) E) as (W & V & F & N & _ & C & _).
    assert (FU : fu d = 0) by (unfold fu; now rewrite F).
    repeat (split; [auto|]). rewrite round_at_0, value_int in V by assumption. apply (proj1 (inject_Z_injective _ _)) in V. exact V.
  - assert (FU : fu a = 0) by lia. exists a. repeat (split; [auto|]).
    rewrite (round_away_comp _ _ (value_int a FU)), round_away_Z. reflexivity.
Qed.

Lemma Qle_not_gt x y : (x <= y)%Q <-> Qcompare x y <> Gt.
Proof. apply Qle_alt. Qed.

Lemma round_away_range q lo hi : (inject_Z lo <= q)%Q -> (q <= inject_Z hi)%Q -> lo <= round_away q <= hi.
Proof.
  intros L U. rewrite <- (round_away_Z lo), <- (round_away_Z hi). split; apply round_away_mono; assumption.
Qed.

Lemma as_i64_ok m a : wf a -> clean a ->
  ((inject_Z (-9223372036854775808) <= value a /\ value a <= inject_Z 9223372036854775807)%Q ->
     as_i64 m a = Ret (Ok (round_away (value a)))) /\
  (~ (inject_Z (-9223372036854775808) <= value a /\ value a <= inject_Z 9223372036854775807)%Q ->
     as_i64 m a = Ret (Err ExceedsConversionTargetRange)).
Proof.
  intros Ha Ca. unfold as_i64, lt, gt.
  rewrite (cmp_const m a _ _ Ha min_i64_int) by lia. rewrite (cmp_const m a _ _ Ha max_i64_int) by lia. mret. mret.
  split; [intros [L U]|intros NB].
  - assert (Qcompare (value a) (inject_Z (-9223372036854775808)) <> Lt).
    { intros C. apply (proj2 (Qlt_alt _ _)) in C. lra. }
    assert (Qcompare (value a) (inject_Z 9223372036854775807) <> Gt) by (apply Qle_not_gt; exact U).
    destruct (to_integer m a Ha Ca) as (t & E & W & C & F & N & S).
    { apply Qabs_Qle_condition. split; eapply Qle_trans; try eassumption; discriminate. }
    assert (R : lsu_to_i64 m t = Ret (round_away (value a))).
    { rewrite <- S. apply lsu_to_i64_ok; auto. rewrite S. apply round_away_range; assumption. }
    destruct (Qcompare (value a) (inject_Z (-9223372036854775808))); try congruence;
    destruct (Qcompare (value a) (inject_Z 9223372036854775807)); try congruence; try (exfalso; apply U'; reflexivity); mret;
    rewrite frac_units_ok by assumption; repeat mret;
    (destruct (fu a >? 0); [rewrite E; repeat mret | apply Ret_inj in E; subst t]; rewrite R; reflexivity).
  - destruct (Qcompare (value a) (inject_Z (-9223372036854775808))) eqn:C1;
      try (mret; reflexivity);
      destruct (Qcompare (value a) (inject_Z 9223372036854775807)) eqn:C2; try (mret; reflexivity); exfalso; apply NB;
      (split; [|apply Qle_not_gt; rewrite C2; discriminate]).
    all: apply Qnot_lt_le; intros CC; apply (proj1 (Qlt_alt _ _)) in CC; congruence.
Qed.

Lemma as_u64_ok m a : wf a -> clean a ->
  (neg a = false /\ (value a <= inject_Z 18446744073709551615)%Q -> as_u64 m a = Ret (Ok (round_away (value a)))) /\
  (~ (neg a = false /\ (value a <= inject_Z 18446744073709551615)%Q) -> as_u64 m a = Ret (Err ExceedsConversionTargetRange)).
Proof.
  intros Ha Ca. unfold as_u64, gt. rewrite is_neg_ok by apply Ha.
  rewrite (cmp_const m a _ _ Ha max_u64_int) by lia. mret. destruct (neg a) eqn:N.
  - split; [intros [? _]; discriminate|]. intros _. mret. reflexivity.
  - pose proof (Qle_not_gt (value a) (inject_Z 18446744073709551615)) as Q.
    split; [intros [_ U]|intros NB].
    + pose proof (proj1 Q U) as U'.
      assert (P : (0 <= value a)%Q) by (unfold value; rewrite N; unfold Qle; cbn [Qnum Qden]; pose proof (magnitude_nonneg a Ha); lia).
      destruct (to_integer m a Ha Ca) as (t & E & W & C & F & Nt & S); [rewrite Qabs_pos; assumption|].
      assert (R : lsu_to_u64 m t = Ret (round_away (value a))).
      { assert (S' : magnitude t = round_away (value a)) by (unfold smag in S; rewrite Nt, N in S; exact S).
        rewrite <- S'. apply lsu_to_u64_ok; auto. rewrite S'. apply (round_away_range (value a) 0); assumption. }
      destruct (Qcompare (value a) (inject_Z 18446744073709551615)) eqn:CU; try congruence; try (exfalso; apply U'; reflexivity); mret;
      rewrite frac_units_ok by assumption; repeat mret;
      (destruct (fu a >? 0); [rewrite E; repeat mret | apply Ret_inj in E; subst t]; rewrite R; reflexivity).
    + destruct (Qcompare (value a) (inject_Z 18446744073709551615)) eqn:C; mret; try reflexivity; exfalso; apply NB; split; auto; apply Q; congruence.
Qed.

(** round trips *)
Lemma i64_roundtrip m n : -9223372036854775808 <= n <= 9223372036854775807 ->
  exists d, from_i64 m n = Ret d /\ as_i64 m d = Ret (Ok n).
Proof.
  intros H. destruct (from_i64_ok m n H) as (d & E & (W & C & _ & _ & _ & V & _)). exists d. split; [exact E|].
  destruct (as_i64_ok m d W C) as [A _]. rewrite A; [rewrite (round_away_comp _ _ V), round_away_Z; reflexivity|].
  rewrite V, <- !Zle_Qle. exact H.
Qed.
Lemma u64_roundtrip m n : 0 <= n <= 18446744073709551615 ->
  exists d, from_u64 m n = Ret d /\ as_u64 m d = Ret (Ok n).
Proof.
  intros H. destruct (from_u64_ok m n H) as (d & E & (W & C & _ & _ & _ & V & _ & N) & _). exists d. split; [exact E|].
  destruct (as_u64_ok m d W C) as [A _]. rewrite A; [rewrite (round_away_comp _ _ V), round_away_Z; reflexivity|].
  rewrite V, <- !Zle_Qle. split; [rewrite N; lia|lia].
Qed.
Lemma Qcompare_inject n k : Qcompare (inject_Z n) (inject_Z k) = Z.compare n k.
Proof. unfold Qcompare, inject_Z. cbn [Qnum Qden]. now rewrite !Z.mul_1_r. Qed.
Lemma cmp_integers m a b n k : integer_decimal a n -> integer_decimal b k -> cmp m a b = Ret (Z.compare n k).
Proof.
  intros (Wa & _ & _ & _ & Na & Va & _) (Wb & _ & _ & _ & Nb & Vb & _).
  rewrite cmp_numeric_nz by assumption. f_equal. rewrite (Qcompare_comp _ _ Va _ _ Vb). apply Qcompare_inject.
Qed.

(** ** hash *)
Lemma hash_ok m a : wf a -> hash m a =
  Ret (WriteU8 (if neg a then 1 else 0) :: WriteU8 (iu a) :: WriteU8 (fu a)
       :: map WriteU32 (firstn (Z.to_nat (iu a + fu a)) (fd_lsu a))).
Proof.
  intros Ha. pose proof (wf_counts a Ha). unfold hash. rewrite intg_units_ok, frac_units_ok by assumption. mret. mret.
  rewrite slice_ok by (rewrite ?wf_zlen by assumption; lia). mret. rewrite is_neg_ok by apply Ha.
  rewrite !as_u8_id by lia. rewrite Z.sub_0_r. do 4 f_equal. cbn [skipn Z.to_nat].
  apply map_ext_in. intros x Hx. f_equal. apply as_u32_id.
  pose proof (Forall_firstn _ _ (Z.to_nat (iu a + fu a)) _ (wf_units a Ha)) as FF. rewrite Forall_forall in FF.
  specialize (FF x Hx). unfold base in FF. lia.
Qed.

Lemma hash_feed m a b ha hb : wf a -> wf b -> hash m a = Ret ha -> hash m b = Ret hb ->
  (ha = hb -> eq m a b = Ret true) /\
  (iu a = iu b -> fu a = fu b -> (eq m a b = Ret true <-> ha = hb)).
Proof.
  intros Wa Wb Ha Hb. rewrite hash_ok in * by assumption. injection Ha as <-. injection Hb as <-.
  assert (H1 : (WriteU8 (if neg a then 1 else 0) :: WriteU8 (iu a) :: WriteU8 (fu a)
       :: map WriteU32 (firstn (Z.to_nat (iu a + fu a)) (fd_lsu a))) = (WriteU8 (if neg b then 1 else 0) :: WriteU8 (iu b) :: WriteU8 (fu b)
       :: map WriteU32 (firstn (Z.to_nat (iu b + fu b)) (fd_lsu b))) -> eq m a b = Ret true).
  { intros E. injection E as EN EI EF EU.
    assert (EL : firstn (Z.to_nat (iu a + fu a)) (fd_lsu a) = firstn (Z.to_nat (iu b + fu b)) (fd_lsu b)).
    { revert EU. generalize (firstn (Z.to_nat (iu a + fu a)) (fd_lsu a)) (firstn (Z.to_nat (iu b + fu b)) (fd_lsu b)).
      induction l as [|x l IH]; intros [|y k] E; try discriminate; [reflexivity|]. cbn in E. injection E as -> E. f_equal. apply IH, E. }
    destruct (eq_iff m a b Wa Wb) as (r & -> & R). f_equal. apply R.
    assert (NN : neg a = neg b) by (destruct (neg a), (neg b); congruence || discriminate).
    split; [|exact NN]. unfold value, magnitude. rewrite EL, EF, NN. reflexivity. }
  split; [exact H1|]. intros EI EF. split; [|exact H1]. intros E.
  destruct (eq_iff m a b Wa Wb) as (r & E' & R). rewrite E in E'. injection E' as <-. destruct (proj1 R eq_refl) as [V N].
  rewrite EI, EF, N. do 4 f_equal.
  assert (M : magnitude a = magnitude b).
  { rewrite (value_smag a Wa), (value_smag b Wb), EF in V. apply Qmult_inj_r in V; [|pose proof (pow10_pos (- (9 * fu b))); lra].
    apply (proj1 (inject_Z_injective _ _)) in V. unfold smag in V. rewrite N in V. destruct (neg b); lia. }
  rewrite !magnitude_sg, EI, EF in M. pose proof (wf_counts b Wb).
  pose proof (wf_zlen a Wa). pose proof (wf_zlen b Wb).
  apply zn_ext; [rewrite !firstn_length; unfold zlen in *; lia|].
  intros k Hk. rewrite !zn_firstn by lia. destruct (k <? Z.of_nat (Z.to_nat (iu b + fu b))) eqn:B; [|reflexivity].
  apply (sg_inj _ _ 0 0 (iu b + fu b) (wf_uok a Wa) (wf_uok b Wb) M k). lia.
Qed.
