(** * Properties: the operators and selection methods that come with the
    order (C84).  Vocabulary: [value], [neg], [wf], [negzero] of [Spec]. *)
From Coq Require Import ZArith List Bool String QArith Qminmax.
From Verif Require Import Rust Model_Base Model_Cmp Model_Order Spec Lib Cmp Sign Basics Witness.
Open Scope Z_scope.

(** C84.  The operators agree with each other: exactly one of [<], [==], [>]
    holds, [<=] is "not [>]", [>=] is "not [<]", [!=] is "not [==]",
    [partial_cmp] is never [None], and turning a comparison round turns the
    operators round. *)
Theorem C84_operators_agree : forall m a b, wf a -> wf b ->
  exists l e g,
    lt m a b = Ret l /\ eq m a b = Ret e /\ gt m a b = Ret g /\
    (l = true /\ e = false /\ g = false \/ l = false /\ e = true /\ g = false \/ l = false /\ e = false /\ g = true) /\
    le m a b = Ret (negb g) /\ ge m a b = Ret (negb l) /\ ne m a b = Ret (negb e) /\
    gt m b a = Ret l /\ eq m b a = Ret e /\ lt m b a = Ret g /\
    ge m b a = Ret (negb g) /\ le m b a = Ret (negb l) /\
    exists c, partial_cmp m a b = Ret (Some c) /\ cmp m a b = Ret c.
Proof.
  intros m a b Ha Hb. destruct (cmp_laws m) as (_ & Hs & _ & _ & Ht). destruct (Ht a b Ha Hb) as (o & Ho).
  pose proof (Hs a b o Ha Hb Ho) as Ho'.
  unfold lt, eq, gt, le, ge, ne, partial_cmp, eq. rewrite Ho, Ho'. cbn [bind].
  exists (match o with Lt => true | _ => false end), (match o with Eq => true | _ => false end),
         (match o with Gt => true | _ => false end).
  destruct o; cbn; repeat (split; [solve [reflexivity | tauto]|]); eexists; split; reflexivity.
Qed.
Print Assumptions C84_operators_agree.

(** C84.  [<=] and [>=] are those of the numbers, unless a zero with a minus
    sign is compared. *)
Theorem C84_le_ge_are_numeric : forall m a b, wf a -> wf b -> ~ negzero a -> ~ negzero b ->
  exists r s, le m a b = Ret r /\ (r = true <-> (value a <= value b)%Q) /\
              ge m a b = Ret s /\ (s = true <-> (value b <= value a)%Q).
Proof.
  intros m a b Ha Hb Na Nb. destruct (C84_operators_agree m a b Ha Hb) as (l & e & g & Hl & _ & Hg & _ & Hle & Hge & _).
  destruct (lt_iff m a b Ha Hb Na Nb) as (r & Hr & Er). destruct (gt_iff m a b Ha Hb Na Nb) as (s & Hs & Es).
  rewrite Hl in Hr. rewrite Hg in Hs. apply Ret_inj in Hr, Hs. subst r s.
  exists (negb g), (negb l). split; [exact Hle|]. split; [|split; [exact Hge|]].
  - rewrite negb_true_iff. split; intros H.
    + apply Qnot_lt_le. intros X. apply Es in X. congruence.
    + destruct g; [|reflexivity]. exfalso. apply (Qle_not_lt _ _ H). apply Es. reflexivity.
  - rewrite negb_true_iff. split; intros H.
    + apply Qnot_lt_le. intros X. apply Er in X. congruence.
    + destruct l; [|reflexivity]. exfalso. apply (Qle_not_lt _ _ H). apply Er. reflexivity.
Qed.
Print Assumptions C84_le_ge_are_numeric.

(** C84.  [max] and [min] never panic, hand back the two operands themselves,
    one each, and the numbers they hand back are the maximum and the minimum
    (zeroes with a minus sign included).  Operands that are [==] come back in
    the order given: [min] the first, [max] the second. *)
Theorem C84_max_min : forall m a b, wf a -> wf b ->
  exists x y, ord_max m a b = Ret x /\ ord_min m a b = Ret y /\
    (x = a /\ y = b \/ x = b /\ y = a) /\
    (value x == Qmax (value a) (value b))%Q /\ (value y == Qmin (value a) (value b))%Q /\
    le m y x = Ret true /\
    (eq m a b = Ret true -> y = a /\ x = b).
Proof.
  intros m a b Ha Hb. destruct (cmp_laws m) as (Hr & Hs & _ & _ & Ht). destruct (Ht a b Ha Hb) as (o & Ho).
  pose proof (Hs a b o Ha Hb Ho) as Ho'. pose proof (cmp_numeric m a b Ha Hb) as N.
  unfold ord_max, ord_min, eq. rewrite Ho. cbn [bind].
  exists (match o with Gt => a | _ => b end), (match o with Gt => b | _ => a end).
  split; [reflexivity|]. split; [reflexivity|]. split; [destruct o; tauto|].
  rewrite Ho in N. apply Ret_inj in N.
  assert (V : match o with Gt => (value b <= value a)%Q | _ => (value a <= value b)%Q end).
  { destruct (Qcompare_spec (value a) (value b)) as [X|X|X]; subst o.
    - destruct (neg a), (neg b); rewrite X; apply Qle_refl.
    - apply Qlt_le_weak; exact X.
    - apply Qlt_le_weak; exact X. }
  clear N.
  split; [destruct o; symmetry; first [apply Q.max_r; exact V | apply Q.max_l; exact V]|].
  split; [destruct o; symmetry; first [apply Q.min_r; exact V | apply Q.min_l; exact V]|].
  split.
  - unfold le, partial_cmp. destruct o; rewrite ?Ho, ?Ho'; reflexivity.
  - intros E. destruct o; cbn in E; try congruence. split; reflexivity.
Qed.
Print Assumptions C84_max_min.

(** C84.  [clamp] panics exactly when the bounds are out of order.  Otherwise
    it hands back a decimal between the bounds: the first operand itself when
    that is within them, the nearest bound when not. *)
Theorem C84_clamp : forall m a lo hi, wf a -> wf lo -> wf hi ->
  (gt m lo hi = Ret true -> clamp m a lo hi = Panic PAssert) /\
  (le m lo hi = Ret true -> exists x, clamp m a lo hi = Ret x /\
     le m lo x = Ret true /\ le m x hi = Ret true /\
     (value x == Qmin (Qmax (value a) (value lo)) (value hi))%Q /\
     (le m lo a = Ret true -> le m a hi = Ret true -> x = a) /\
     (lt m a lo = Ret true -> x = lo) /\ (gt m a hi = Ret true -> x = hi)).
Proof.
  intros m a lo hi Ha Hl Hh. destruct (cmp_laws m) as (Hr & Hs & Htr & Hcong & Ht).
  assert (LV : forall x y c, wf x -> wf y -> cmp m x y = Ret c ->
             match c with Gt => (value y <= value x)%Q | _ => (value x <= value y)%Q end).
  { intros x y c Hx Hy Hc. pose proof (cmp_numeric m x y Hx Hy) as N. rewrite Hc in N. apply Ret_inj in N.
    destruct (Qcompare_spec (value x) (value y)) as [X|X|X]; subst c.
    - destruct (neg x), (neg y); rewrite X; apply Qle_refl.
    - apply Qlt_le_weak; exact X.
    - apply Qlt_le_weak; exact X. }
  destruct (Ht lo hi Hl Hh) as (o & Ho). destruct (Ht a lo Ha Hl) as (p & Hp). destruct (Ht a hi Ha Hh) as (q & Hq).
  pose proof (Hs _ _ _ Ha Hl Hp) as Hp'.
  pose proof (LV _ _ _ Hl Hh Ho) as Vo. pose proof (LV _ _ _ Ha Hl Hp) as Vp. pose proof (LV _ _ _ Ha Hh Hq) as Vq.
  unfold clamp, le, lt, gt, partial_cmp. rewrite Ho, Hp, Hq, Hp'. cbn [bind].
  split.
  - destruct o; cbn; congruence.
  - intros Eo. assert (o <> Gt) as No by (destruct o; cbn in Eo; congruence).
    assert (Vo' : (value lo <= value hi)%Q) by (destruct o; [exact Vo|exact Vo|congruence]).
    clear Vo.
    destruct p; cbn [bind].
    + (* a == lo *)
      assert (Q1 : q = o). { destruct (Hcong a lo hi Ha Hl Hh Hp) as (C & _). rewrite Hq, Ho in C. congruence. }
      subst q. exists a.
      split; [destruct o; cbn; congruence|]. split; [rewrite Hp'; reflexivity|].
      split; [rewrite Hq; destruct o; cbn; congruence|].
      assert (V2 : (value lo <= value a)%Q) by (pose proof (LV _ _ _ Hl Ha Hp') as V; exact V).
      split. { rewrite Q.max_l by exact V2. rewrite Q.min_l; [reflexivity|]. destruct o; [exact Vq|exact Vq|congruence]. }
      split; [reflexivity|]. split; [cbn; congruence|]. destruct o; cbn; congruence.
    + exists lo. split; [destruct o; cbn; congruence|]. split; [rewrite (Hr lo Hl); reflexivity|].
      split; [rewrite Ho; destruct o; cbn; congruence|].
      split. { rewrite Q.max_r by exact Vp. rewrite Q.min_l by exact Vo'. reflexivity. }
      split; [cbn; congruence|]. split; [reflexivity|].
      destruct q; cbn; try congruence. intros _. exfalso.
      destruct o; [|pose proof (Htr a lo hi Lt Ha Hl Hh Hp Ho)|congruence].
      * destruct (Hcong lo hi a Hl Hh Ha Ho) as (_ & C). congruence.
      * congruence.
    + destruct q; cbn [bind].
      * exists a. split; [destruct o; cbn; congruence|]. split; [rewrite Hp'; reflexivity|]. split; [rewrite Hq; reflexivity|].
        split. { rewrite Q.max_l by exact Vp. rewrite Q.min_l by exact Vq. reflexivity. }
        split; [reflexivity|]. split; cbn; congruence.
      * exists a. split; [destruct o; cbn; congruence|]. split; [rewrite Hp'; reflexivity|]. split; [rewrite Hq; reflexivity|].
        split. { rewrite Q.max_l by exact Vp. rewrite Q.min_l by exact Vq. reflexivity. }
        split; [reflexivity|]. split; cbn; congruence.
      * exists hi. split; [destruct o; cbn; congruence|]. split; [rewrite Ho; destruct o; cbn; congruence|].
        split; [rewrite (Hr hi Hh); reflexivity|].
        split. { rewrite Q.max_l by exact Vp. rewrite Q.min_r by exact Vq. reflexivity. }
        split; [cbn; congruence|]. split; [cbn; congruence|]. reflexivity.
Qed.
Print Assumptions C84_clamp.

Example C84_example : let a := dec "-12345678901234567890.5" in let b := dec "0000.00000000001" in let c := dec "7" in
  wf a /\ wf b /\ wf c /\ ~ negzero a /\ ~ negzero b /\
  le Debug a b = Ret true /\ ge Release a b = Ret false /\ ord_max Debug a c = Ret c /\ ord_min Debug c b = Ret b /\
  ord_min Debug b (dec "00.000000000010") = Ret b /\ ord_max Debug b (dec "00.000000000010") <> Ret b /\
  clamp Debug a b c = Ret b /\ clamp Release b a c = Ret b /\ clamp Debug c a b = Ret b /\
  clamp Release b c a = Panic PAssert.
Proof. hyps. Qed.
