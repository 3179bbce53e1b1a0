(** * Property C108: conversion and back. *)
From Coq Require Import ZArith List Bool String Lia QArith Qabs Qround Lqa.
From Verif Require Import Rust Model_Base Model_Cmp Model_Round Model_Decimal Model_Arith Model_Serde Spec Spec_Div Spec_Convert Lib Digits Sign Basics QLib RoundQ MulLaws DivQ Conv ParseMain Scan ParseThms Laws Laws4
  Prop_Print Prop_Parse Prop_Round Prop_Laws4 Prop_Compound Prop_Split Tests Witness.
Import ListNotations.
Open Scope Z_scope.

Lemma round_away_near q z : (Qabs (q - inject_Z z) < 1 # 2)%Q -> round_away q = z.
Proof.
  intros H. pose proof (round_away_close q) as C. set (r := round_away q) in *.
  assert (T : (Qabs (inject_Z (r - z)) < 1)%Q).
  { unfold Z.sub. rewrite inject_Z_plus, inject_Z_opp. setoid_replace (inject_Z r + - inject_Z z)%Q with ((inject_Z r - q) + (q - inject_Z z))%Q by ring.
    eapply Qle_lt_trans; [apply Qabs_triangle|]. lra. }
  change (Qabs (inject_Z (r - z))) with (inject_Z (Z.abs (r - z))) in T. change 1%Q with (inject_Z 1) in T. rewrite <- Zlt_Qlt in T. lia.
Qed.
Lemma round_at_near q k f : (Qabs (q - inject_Z k * pow10 (- f)) < pow10 (- f) * (1 # 2))%Q -> (round_at q f == inject_Z k * pow10 (- f))%Q.
Proof.
  intros H. unfold round_at. rewrite (round_away_near (q * pow10 f) k); [reflexivity|]. pose proof (pow10_pos f) as P. pose proof (pow10_inv f) as I.
  assert (E : (q * pow10 f - inject_Z k == (q - inject_Z k * pow10 (- f)) * pow10 f)%Q).
  { unfold Qminus. rewrite Qmult_plus_distr_l. set (v := pow10 f) in *. set (w := pow10 (- f)) in *. setoid_replace (- (inject_Z k * w) * v)%Q with (- (inject_Z k * (w * v)))%Q by ring. rewrite I. ring. }
  rewrite E, Qabs_Qmult, (Qabs_pos (pow10 f)) by lra.
  set (u := Qabs _) in *. set (v := pow10 f) in *. set (w := pow10 (- f)) in *. assert (X : (u * v < (w * (1 # 2)) * v)%Q) by (apply Qmult_lt_r; assumption).
  setoid_replace (w * (1 # 2) * v)%Q with (w * v * (1 # 2))%Q in X by ring. rewrite I in X. lra.
Qed.

(** ** C108 *)
Theorem C108_there_and_back : forall m s t g f, amount_ok 25 26 s -> rate_ok m t -> (m = Debug -> n_int s <> []) -> 0 <= g <= 27 -> 0 <= f <= 8 ->
  exists y z, convert m (numeral_bytes t) g (numeral_bytes s) = Ret (Ok (numeral_bytes y)) /\ canonical y /\ zlength (n_frac y) = g /\
    (numeral_value y == round_at (numeral_value s * numeral_value t) g)%Q /\
    convert_back m (numeral_bytes t) f (numeral_bytes y) = Ret (Ok (numeral_bytes z)) /\ canonical z /\ zlength (n_frac z) = f /\
    (Qabs (numeral_value z - numeral_value s) <= pow10 (- f) * (1 # 2) + pow10 (- g) * (1 # 2) / Qabs (numeral_value t))%Q /\
    (zlength (n_frac s) <= f -> (pow10 (- g) < Qabs (numeral_value t) * pow10 (- f))%Q -> (numeral_value z == numeral_value s)%Q).
Proof.
  intros m s t g f (OKs & EXs & LIs & LFs) (OKt & EXt & Lt & NZ & DB) DS Hg Hf.
  pose proof (zlength_nonneg _ (n_int s)) as Z1. pose proof (zlength_nonneg _ (n_frac s)) as Z2. pose proof (zlength_nonneg _ (n_int t)) as Z3. pose proof (zlength_nonneg _ (n_frac t)) as Z4.
  destruct (C66_end_to_end_products m s t g OKs OKt EXs EXt ltac:(lia) ltac:(lia) ltac:(lia) ltac:(lia)) as (a & b & p & r & y & Ea & Eb & Ep & Er & Ey & Cy & Ly & Vy); [destruct m; [right; apply DS; reflexivity|left; reflexivity]|lia|].
  set (x := numeral_value s) in *. set (e := numeral_value t) in *.
  destruct (within_plain s _ _ OKs EXs (Z.le_refl _) (Z.le_refl _) ltac:(lia)) as (WLs & NFs & NDs). destruct (within_plain t _ _ OKt EXt (Z.le_refl _) (Z.le_refl _) ltac:(lia)) as (WLt & NFt & NDt).
  assert (LY : zlength (n_int y) <= 36).
  { assert (BS : (Qabs x < pow10 (zlength (n_int s)))%Q).
    { destruct (from_str_accepts m s OKs WLs) as (a' & _ & [PW PV _ _ PI PT _ _] & _). pose proof (tight_bound a' PW PT) as TB. rewrite PV in TB. eapply Qlt_le_trans; [exact TB|]. apply pow10_le. lia. }
    assert (BT : (Qabs e < pow10 (zlength (n_int t)))%Q).
    { destruct (from_str_accepts m t OKt WLt) as (a' & _ & [PW PV _ _ PI PT _ _] & _). pose proof (tight_bound a' PW PT) as TB. rewrite PV in TB. eapply Qlt_le_trans; [exact TB|]. apply pow10_le. lia. }
    assert (PS : (Qabs (x * e) < pow10 35)%Q).
    { rewrite Qabs_Qmult. eapply Qlt_le_trans; [|apply (pow10_le (zlength (n_int s) + zlength (n_int t)) 35); lia]. rewrite pow10_add. pose proof (Qabs_nonneg x) as Xa. pose proof (Qabs_nonneg e) as Xb.
      set (u := Qabs x) in *. set (v := Qabs e) in *. set (c := pow10 (zlength (n_int s))) in *. set (d := pow10 (zlength (n_int t))) in *. clearbody u v c d. clear - BS BT Xa Xb. nra. }
    apply canonical_int_digits; [exact Cy|lia|]. rewrite Vy, <- pow36.
    pose proof (round_at_close (x * e) g) as C. assert (P : (pow10 (- g) <= 1)%Q) by (rewrite <- pow10_0; apply pow10_le; lia).
    assert (T : (Qabs (round_at (x * e) g) <= Qabs (round_at (x * e) g - x * e) + Qabs (x * e))%Q).
    { eapply Qle_trans; [|apply Qabs_triangle]. setoid_replace (round_at (x * e) g - x * e + x * e)%Q with (round_at (x * e) g) by ring. apply Qle_refl. }
    assert (X : (pow10 35 + 1 <= pow10 36)%Q) by (vm_compute; discriminate).
    set (u := pow10 35) in *. set (v := pow10 36) in *. set (w := pow10 (- g)) in *. set (h := Qabs (x * e)) in *. set (k := Qabs (round_at (x * e) g - x * e)) in *. clearbody u v w h k. lra. }
  destruct Cy as (OKy & CYR). pose proof CYR as (_ & EXy & _).
  destruct (C65_end_to_end_quotients m y t f OKy OKt EXy EXt LY ltac:(lia) Lt) as (a' & b' & q & r' & z & Ea' & Eb' & Eq & Er' & Ez & Cz & Lz & Vz); [destruct m; [right; apply DB; reflexivity|left; reflexivity]|exact NZ|exact Hf|].
  fold e in Vz. set (v := numeral_value y) in *.
  assert (AE : (0 < Qabs e)%Q).
  { destruct (Qlt_le_dec 0 (Qabs e)) as [|L]; [assumption|]. exfalso. apply NZ. pose proof (Qabs_nonneg e). apply Qabs_Qle_condition in L. destruct L. fold e. lra. }
  set (w := pow10 (- g)) in *. set (u := pow10 (- f)).
  assert (DQ : (Qabs (v / e - x) <= w * (1 # 2) / Qabs e)%Q).
  { pose proof (round_at_close (x * e) g) as C. rewrite <- Vy in C. fold w in C. setoid_replace (v / e - x)%Q with ((v - x * e) / e)%Q by (field; exact NZ).
    rewrite Qabs_quotient by exact NZ. unfold Qdiv. apply Qmult_le_compat_r; [exact C|]. apply Qinv_le_0_compat. apply Qabs_nonneg. }
  exists y, z. split; [unfold convert; rewrite Ea, Eb, !bind_Ret; cbv beta iota; rewrite Ep, bind_Ret; cbv beta iota; rewrite Er, bind_Ret, Ey; reflexivity|].
  split; [exact (conj OKy CYR)|]. split; [exact Ly|]. split; [exact Vy|].
  split; [unfold convert_back; rewrite Ea', Eb', !bind_Ret; cbv beta iota; rewrite Eq, bind_Ret; cbv beta iota; rewrite Er', bind_Ret, Ez; reflexivity|].
  split; [exact Cz|]. split; [exact Lz|]. split.
  - pose proof (round_at_close (v / e) f) as C. rewrite <- Vz in C. fold u in C.
    assert (T : (Qabs (numeral_value z - x) <= Qabs (numeral_value z - v / e) + Qabs (v / e - x))%Q).
    { eapply Qle_trans; [|apply Qabs_triangle]. setoid_replace (numeral_value z - v / e + (v / e - x))%Q with (numeral_value z - x)%Q by ring. apply Qle_refl. }
    set (h := (w * (1 # 2) / Qabs e)%Q) in *. clearbody h. lra.
  - intros F SM. destruct (bill_units s f OKs ltac:(lia) ltac:(lia)) as (k & K). fold x u in K. rewrite Vz, K. apply round_at_near. fold u. rewrite <- K.
    eapply Qle_lt_trans; [exact DQ|]. apply Qlt_shift_div_r; [exact AE|]. fold e u in SM. setoid_replace (u * (1 # 2) * Qabs e)%Q with (Qabs e * u * (1 # 2))%Q by ring. lra.
Qed.
Print Assumptions C108_there_and_back.

(** 19.99 at the rate 0.9173, kept to four places (release), and 19.99 at 7 (debug). *)
Example C108_example : let s := mknum None [1; 9] true [9; 9] None in let t := mknum None [0] true [9; 1; 7; 3] None in let t' := mknum None [7] false [] None in
  numeral_bytes s = bytes "19.99" /\ numeral_bytes t = bytes "0.9173" /\ amount_ok 25 26 s /\ rate_ok Release t /\ rate_ok Debug t' /\ n_int s <> [] /\
  (pow10 (- 4) < Qabs (numeral_value t) * pow10 (- 2))%Q /\
  convert Release (bytes "0.9173") 4 (bytes "19.99") = Ret (Ok (bytes "18.3368")) /\ convert_back Release (bytes "0.9173") 2 (bytes "18.3368") = Ret (Ok (bytes "19.99")) /\
  convert Debug (bytes "7") 2 (bytes "19.99") = Ret (Ok (bytes "139.93")) /\ convert_back Debug (bytes "7") 2 (bytes "139.93") = Ret (Ok (bytes "19.99")).
Proof.
  cbv zeta. repeat match goal with |- _ /\ _ => split end; try (vm_compute; reflexivity); try discriminate; try (vm_compute; discriminate);
    repeat constructor; cbn; try lia; try (vm_compute; discriminate); try congruence; auto.
Qed.
(** With too few places on the way the amount is not found again. *)
Example C108_too_few_places : forall m, convert m (bytes "0.5") 2 (bytes "0.01") = Ret (Ok (bytes "0.01")) /\ convert_back Release (bytes "0.5") 2 (bytes "0.01") = Ret (Ok (bytes "0.02")).
Proof. intros [|]; split; vm_compute; reflexivity. Qed.
