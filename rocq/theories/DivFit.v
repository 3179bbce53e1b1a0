(** * Where division returns. *)
From Coq Require Import ZArith List Bool Lia QArith Qabs.
From Coq Require Import ZifyBool ZifyNat.
From Verif Require Import Rust Tables Model_Base Model_Cmp Model_Arith Spec Spec_Div Lib Cmp AddSub Sign QLib Mul MulQ DivBasics Div3 Div5 DivQ Agree.
Open Scope Z_scope.
Ltac Zify.zify_post_hook ::= Z.div_mod_to_equations.

Lemma fits_iff a b incr lnz rnz : wf a -> wf b -> magnitude b <> 0 -> lead2 a b lnz rnz ->
  (division_fits a b incr <-> room a b incr lnz rnz /\ buffer_room a b incr lnz rnz).
Proof.
  intros Ha Hb Nb L. pose proof (wf_counts a Ha) as CA. pose proof (wf_counts b Hb) as CB.
  pose proof (l2_a0 a b lnz rnz L) as A0. pose proof (l2_b0 a b lnz rnz L) as B0.
  pose proof (leading_is a lnz Ha ltac:(clear - A0; lia) (l2_at a b lnz rnz L) (l2_ap a b lnz rnz L)) as LA.
  pose proof (leading_is b rnz Hb ltac:(clear - B0; lia) (l2_bt a b lnz rnz L) (l2_bp a b lnz rnz L)) as LB.
  pose proof (lz_bound _ (proj1 (l2_ap a b lnz rnz L))) as Zl. pose proof (lz_bound _ (proj1 (l2_bp a b lnz rnz L))) as Zr.
  pose proof (exp_bounds a b lnz rnz Ha Hb L) as EB. cbv zeta in EB. destruct EB as [E1 E2].
  set (P := 9 * (lnz - fu a) + 8 - unit_leading_zeroes (zn (fd_lsu a) lnz)) in *.
  set (Q := 9 * (rnz - fu b) + 8 - unit_leading_zeroes (zn (fd_lsu b) rnz)) in *.
  assert (GS : starts_above a b P Q = qge a b lnz rnz).
  { unfold starts_above. replace (P / 9 - Q / 9) with (qk a b lnz rnz) by (unfold qk, P, Q; clear - Zl Zr; lia).
    unfold exp_of in *. destruct (qge a b lnz rnz); cbn [b2z] in *.
    - apply Qle_bool_iff. replace (9 * qk a b lnz rnz) with (9 * (qk a b lnz rnz + 1 - 1)) by lia. exact E1.
    - rewrite Z.add_0_r in E2. destruct (Qle_bool (pow10 (9 * qk a b lnz rnz)) (Qabs (value a / value b))) eqn:X; [|reflexivity].
      apply Qle_bool_iff in X. exfalso. exact (Qlt_irrefl _ (Qle_lt_trans _ _ _ X E2)). }
  assert (EU : forall p q, leading_digit a p -> leading_digit b q -> p = P /\ q = Q).
  { intros p q (X1 & X2) (Y1 & Y2). destruct LA as (? & ?), LB as (? & ?). split; [exact (leading_unique _ _ _ X1 X2 H H0)|exact (leading_unique _ _ _ Y1 Y2 H1 H2)]. }
  assert (EF : foreseen_digits a b P Q = qgz a b lnz rnz).
  { unfold foreseen_digits, qgz. rewrite GS. unfold qk, P, Q, b2z. clear. destruct (qge a b lnz rnz); lia. }
  assert (EE : foreseen_units a b P Q = exp_of a b lnz rnz).
  { unfold foreseen_units, exp_of. rewrite GS. unfold qk, b2z, P, Q. clear - Zl Zr. destruct (qge a b lnz rnz); lia. }
  assert (HG : 0 <= Z.max (fu a + fu b) (units_for (frac_digits a + frac_digits b + incr))) by (clear - CA CB; lia).
  assert (BR : buffer_room a b incr lnz rnz <-> ~ (9 * (8 - fu a) <= P /\ 9 * (1 - fu b) <= Q /\ starts_above a b P Q = true /\
     foreseen_units a b P Q <= 9 <= foreseen_units a b P Q + asked_units a b incr)).
  { rewrite GS, EE. unfold buffer_room. unfold qfu, qiu, asked_units. fold (exp_of a b lnz rnz).
    set (e := exp_of a b lnz rnz) in *. set (G := Z.max (fu a + fu b) (units_for (frac_digits a + frac_digits b + incr))) in *.
    assert (X1 : 9 * (8 - fu a) <= P <-> 8 <= lnz) by (unfold P; clear - Zl; lia).
    assert (X2 : 9 * (1 - fu b) <= Q <-> 1 <= rnz) by (unfold Q; clear - Zr; lia).
    rewrite X1, X2. clear - HG A0 B0 CA CB. clearbody e G. destruct (qge a b lnz rnz); lia. }
  unfold division_fits, room. rewrite <- EF. split.
  - intros H. destruct (H P Q LA LB) as (H1 & H2 & H3 & H4). rewrite BR. auto.
  - intros ((H1 & H2 & H3) & H4) p q Lp Lq. destruct (EU p q Lp Lq) as (-> & ->). rewrite BR in H4. auto.
Qed.

(** What is returned fits, and what fits is returned if the long division returns. *)
Lemma div_to_fits m a b res incr : wf a -> wf b -> ~ (value a == 0)%Q -> ~ (value b == 0)%Q -> 0 <= incr -> sane_request a b incr ->
  (long_returns m a b incr -> division_fits a b incr -> exists o, div_to m a b res incr = Ret o) /\
  (forall o, div_to m a b res incr = Ret o -> division_fits a b incr).
Proof.
  intros Ha Hb Na Nb Hi Sn. pose proof (wf_counts a Ha) as CA. pose proof (wf_counts b Hb) as CB.
  rewrite value_zero_iff in Na, Nb by assumption. unfold div_to. rewrite as_isize_id by (unfold sane_request in Sn; clear - Sn CA CB Hi; lia).
  destruct (div_abs_returns_iff m a b res incr Ha Hb Na Nb Hi Sn) as (lnz & rnz & L & R1 & R2).
  pose proof (fits_iff a b incr lnz rnz Ha Hb Nb L) as FI. split.
  - intros LR X. apply FI in X. destruct X as [X Y]. destruct (R1 LR X Y) as ([rs d] & E). rewrite E. mret. cbn [finish_sign]. destruct rs; eauto.
  - intros o H. apply bind_inv in H. destruct H as (o' & E & _). apply FI. exact (R2 o' E).
Qed.

(** A simple condition. *)
Lemma fits_simple a b incr : wf a -> wf b -> ~ (value a == 0)%Q -> ~ (value b == 0)%Q -> div_room a b incr -> iu a + fu a <= 8 -> division_fits a b incr.
Proof.
  intros Ha Hb Na Nb Rm R8. rewrite value_zero_iff in Na, Nb by assumption. destruct (lead2_ex a b Ha Hb Na Nb) as (lnz & rnz & _ & _ & L).
  rewrite (fits_iff a b incr lnz rnz Ha Hb Nb L). split; [apply div_room_room; assumption|].
  destruct (Z.lt_ge_cases 9 (exp_of a b lnz rnz)) as [O|O]; [left; exact O|right; right; left].
  pose proof (wf_counts a Ha) as CA. pose proof (wf_counts b Hb) as CB. pose proof (l2_a0 a b lnz rnz L) as A0.
  unfold qfu, qiu. fold (exp_of a b lnz rnz). clear - A0 R8 O CA CB. lia.
Qed.
Lemma room_sane a b incr : div_room a b incr -> sane_request a b incr.
Proof. intros (_ & _ & _ & R4). unfold sane_request. lia. Qed.
Lemma div_to_returns_gen m a b res incr : wf a -> wf b -> ~ (value b == 0)%Q -> 0 <= incr -> div_room a b incr ->
  long_returns m a b incr -> iu a + fu a <= 8 -> exists o, div_to m a b res incr = Ret o.
Proof.
  intros Ha Hb Nb Hi Rm LG R8. destruct (Qeq_dec (value a) 0) as [V|V]; [eexists; apply div_to_zero; assumption|].
  apply (div_to_fits m a b res incr Ha Hb V Nb Hi (room_sane a b incr Rm)); [exact LG|]. apply fits_simple; assumption.
Qed.
