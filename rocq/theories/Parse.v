(** * Parsing, second half: the conversion. *)
From Coq Require Import ZArith List Bool Lia QArith.
From Coq Require Import ZifyBool ZifyNat.
Import ListNotations.
From Verif Require Import Rust Tables Model_Base Model_Decimal Model_Serde Spec Lib AddSub QLib Digits Print Scan.
Open Scope Z_scope.
Ltac Zify.zify_post_hook ::= Z.div_mod_to_equations.

(** Bytes that carry the digits [ds], with points in between, ending in a digit. *)
Inductive dotted : list Z -> list Z -> Prop :=
| dotted_one x : is_digit x -> dotted [digit_byte x] [x]
| dotted_digit x mid ds : is_digit x -> dotted mid ds -> dotted (digit_byte x :: mid) (x :: ds)
| dotted_dot mid ds : dotted mid ds -> dotted (46 :: mid) ds.

Lemma dotted_len mid ds : dotted mid ds -> 1 <= zlength ds.
Proof. induction 1; rewrite ?zlength_cons; try lia. pose proof (zlength_nonneg _ (@nil Z)). lia. Qed.
Lemma dotted_mid mid ds : dotted mid ds -> 1 <= zlength mid.
Proof. induction 1; rewrite ?zlength_cons; try lia. pose proof (zlength_nonneg _ (@nil Z)). lia. Qed.
Lemma dotted_digits mid ds : dotted mid ds -> Forall is_digit ds.
Proof. induction 1; try assumption; constructor; try assumption; constructor. Qed.
Lemma dotted_map ds : Forall is_digit ds -> ds <> [] -> dotted (map digit_byte ds) ds.
Proof.
  induction 1 as [|x ds Hx F IH]; [contradiction|]. intros _. destruct ds as [|y ds].
  - now constructor.
  - cbn [map]. constructor; [exact Hx|]. apply IH. discriminate.
Qed.
Lemma dotted_point ip fp : Forall is_digit ip -> Forall is_digit fp -> fp <> [] ->
  dotted (map digit_byte ip ++ 46 :: map digit_byte fp) (ip ++ fp).
Proof.
  intros FI FF N. induction FI as [|x ip Hx FI IH]; cbn [map app].
  - constructor. now apply dotted_map.
  - now constructor.
Qed.

Lemma pow10_9 : 10 ^ 9 = base. Proof. reflexivity. Qed.
Lemma p10 n : 0 <= n -> 0 < 10 ^ n. Proof. intros. apply Z.pow_pos_nonneg; lia. Qed.
Lemma p10_S n : 0 <= n -> 10 ^ (1 + n) = 10 * 10 ^ n.
Proof. intros. rewrite Z.pow_add_r by lia. reflexivity. Qed.
Lemma pow10_get k : 0 <= k <= 9 -> get POW10 k = Ret (10 ^ k).
Proof.
  intros H. assert (k = 0 \/ k = 1 \/ k = 2 \/ k = 3 \/ k = 4 \/ k = 5 \/ k = 6 \/ k = 7 \/ k = 8 \/ k = 9) as C by lia.
  destruct C as [->|[->|[->|[->|[->|[->|[->|[->|[->| ->]]]]]]]]]; reflexivity.
Qed.

(** ** The integral digits *)

Lemma zero_fill_ok m fuel l a n : uok l -> 0 <= a -> 0 <= n -> a + n <= zlen l -> n <= 14 -> (Z.to_nat n < fuel)%nat ->
  exists l', zero_fill m fuel l (a + n - 1) (9 * n) = Ret (l', a - 1) /\ uok l' /\ zlen l' = zlen l /\
    (forall k, 0 <= k -> zn l' k = if (a <=? k) && (k <? a + n) then 0 else zn l k).
Proof.
  revert l n. induction fuel as [|fuel IH]; intros l n U A N L B F; [lia|]. cbn [zero_fill].
  destruct (Z.eq_dec n 0) as [->|Hn].
  - change (9 * 0 >? 0) with false. cbv iota. exists l. split; [f_equal; f_equal; lia|]. split; [exact U|]. split; [reflexivity|].
    intros k Hk. replace ((a <=? k) && (k <? a + 0)) with false by lia. reflexivity.
  - replace (9 * n >? 0) with true by lia. rewrite set_ok by lia. mret. unfold DIGITS_PER_UNIT. rewrite i8_ok by lia. mret.
    destruct (IH (upd (Z.to_nat (a + n - 1)) 0 l) (n - 1)) as (l' & E & U' & L' & Z').
    + apply uok_upd; [exact U|]. unfold base. lia.
    + exact A.
    + lia.
    + rewrite zlen_upd. lia.
    + lia.
    + lia.
    + replace (a + n - 1 - 1) with (a + (n - 1) - 1) by lia. replace (9 * n - 9) with (9 * (n - 1)) by lia.
      exists l'. split; [exact E|]. split; [exact U'|]. split; [rewrite L'; apply zlen_upd|].
      intros k Hk. rewrite Z' by lia. rewrite zn_upd by lia.
      destruct (Z.eqb_spec k (a + n - 1)).
      * replace ((a <=? k) && (k <? a + n)) with true by lia. destruct (_ && _); reflexivity.
      * replace ((a <=? k) && (k <? a + (n - 1))) with ((a <=? k) && (k <? a + n)) by lia. reflexivity.
Qed.

(** The loop and what follows it. *)
Definition intg_phase (m : build) (fuel : nat) (bs : list Z) (last i out cut up : Z) (l : list Z) :=
  '(i, out, cut, up, l) <- intg_loop m fuel bs last i out cut up l ;;
  let i := i + 1 in
  re <- mod9 cut ;;
  p <- get POW10 re ;;
  v <- i32 m (out * p) ;;
  l <- set l up v ;;
  cut <- i8 m (cut - as_i8 re) ;;
  '(l, up) <- zero_fill m fill_fuel l (up - 1) cut ;;
  Ret (l, up, i).


Lemma intg_end m fu cut out i l : uok l -> zlen l = 9 -> 0 <= fu -> 0 <= cut <= 80 -> fu + cut / 9 < 9 ->
  0 <= out < 10 ^ (9 - cut mod 9) ->
  exists l', (let i := i + 1 in
     re <- mod9 cut ;; p <- get POW10 re ;; v <- i32 m (out * p) ;; l <- set l (fu + cut / 9) v ;;
     cut' <- i8 m (cut - as_i8 re) ;; '(l, up) <- zero_fill m fill_fuel l (fu + cut / 9 - 1) cut' ;; Ret (l, up, i)) = Ret (l', fu - 1, i + 1) /\
    uok l' /\ zlen l' = 9 /\ sg l' fu (cut / 9 + 1) = out * 10 ^ cut /\
    (forall k, 0 <= k -> k < fu \/ fu + cut / 9 < k -> zn l' k = zn l k).
Proof.
  intros U L F C B O. cbv zeta. rewrite mod9_ok by lia. mret. rewrite pow10_get by lia. mret.
  assert (P : 10 ^ (9 - cut mod 9) * 10 ^ (cut mod 9) = base).
  { rewrite <- Z.pow_add_r by lia. replace (9 - cut mod 9 + cut mod 9) with 9 by lia. reflexivity. }
  pose proof (p10 (cut mod 9) ltac:(lia)) as P1.
  assert (OB : 0 <= out * 10 ^ (cut mod 9) < base) by nia.
  rewrite i32_ok by (unfold base in OB; lia). mret. rewrite set_ok by lia. mret.
  rewrite as_i8_id by lia. rewrite i8_ok by lia. mret.
  set (l1 := upd _ _ l). assert (U1 : uok l1) by (apply uok_upd; assumption).
  assert (L1 : zlen l1 = 9) by (unfold l1; rewrite zlen_upd; exact L).
  destruct (zero_fill_ok m fill_fuel l1 fu (cut / 9)) as (l' & E & U' & L' & Z'); [exact U1|lia|lia|lia|lia|unfold fill_fuel; lia|].
  replace (cut - cut mod 9) with (9 * (cut / 9)) by lia. rewrite E. mret.
  exists l'. split; [reflexivity|]. split; [exact U'|]. split; [lia|]. split.
  - rewrite sg_snoc by lia. rewrite sg_0.
    2:{ intros k Hk. rewrite Z' by lia. replace ((fu <=? k) && (k <? fu + cut / 9)) with true by lia. reflexivity. }
    rewrite Z' by lia. replace ((fu <=? fu + cut / 9) && (fu + cut / 9 <? fu + cut / 9)) with false by lia.
    unfold l1. rewrite zn_upd_eq by lia. rewrite <- pow_base by lia.
    replace (10 ^ cut) with (10 ^ (9 * (cut / 9)) * 10 ^ (cut mod 9)); [ring|].
    rewrite <- Z.pow_add_r by lia. f_equal. lia.
  - intros k Hk H. rewrite Z' by lia. replace ((fu <=? k) && (k <? fu + cut / 9)) with false by lia.
    unfold l1. apply zn_upd_ne; lia.
Qed.

Lemma intg_phase_ok m fu mid ds : dotted mid ds -> 0 <= fu ->
  forall pre post out cut l fuel, uok l -> zlen l = 9 -> 1 <= cut <= 80 -> fu + (cut - 1) / 9 < 9 ->
  0 <= out < 10 ^ (8 - (cut - 1) mod 9) -> (length mid < fuel)%nat ->
  exists l' mid1 mid2,
    intg_phase m fuel (pre ++ mid ++ post) (zlength pre + zlength mid - 1) (zlength pre) out cut (fu + (cut - 1) / 9) l
      = Ret (l', fu - 1, zlength pre + zlength mid1) /\
    uok l' /\ zlen l' = 9 /\
    (forall k, 0 <= k -> k < fu \/ fu + (cut - 1) / 9 < k -> zn l' k = zn l k) /\
    mid = mid1 ++ mid2 /\
    ((zlength ds <= cut /\ mid2 = [] /\ sg l' fu ((cut - 1) / 9 + 1) = out * 10 ^ cut + digits_value ds * 10 ^ (cut - zlength ds))
     \/ (exists ds1 ds2, ds = ds1 ++ ds2 /\ zlength ds1 = cut /\ dotted mid2 ds2 /\
          sg l' fu ((cut - 1) / 9 + 1) = out * 10 ^ cut + digits_value ds1)).
Proof.
  intros D Hfu. unfold intg_phase. induction D as [x Hx | x mid ds Hx D IH | mid ds D IH]; intros pre post out cut l fuel U L C B O FU;
    (destruct fuel as [|fuel]; [cbn in FU; lia|]); cbn [intg_loop app]; rewrite get_mid; mret.
  - (* last digit *)
    unfold is_digit in Hx. unfold cdot, digit_byte at 1. replace (48 + x =? 46) with false by lia.
    assert (10 ^ (8 - (cut - 1) mod 9) <= 10 ^ 8) by (apply Z.pow_le_mono_r; lia).
    change (10 ^ 8) with 100000000 in *. unfold digit_byte at 1, c0.
    rewrite i32_ok by lia. mret. rewrite i32_ok by lia. mret. rewrite i32_ok by lia. mret. rewrite i8_ok by lia. mret.
    change (zlength [digit_byte x]) with 1. replace (zlength pre =? zlength pre + 1 - 1) with true by lia.
    assert (EQ : forall (A : Type) (a : A), (if cut - 1 =? 0 then a else a) = a) by (intros; destruct (_ =? _); reflexivity).
    rewrite EQ. mret.
    destruct (intg_end m fu (cut - 1) (out * 10 + (48 + x) - 48) (zlength pre) l) as (l' & E & U' & L' & V & K); [exact U|exact L|lia|lia|lia| |].
    { replace (9 - (cut - 1) mod 9) with (1 + (8 - (cut - 1) mod 9)) by lia. rewrite p10_S by lia. lia. }
    exists l', [digit_byte x], []. split; [exact E|]. split; [exact U'|]. split; [exact L'|]. split; [exact K|]. split; [reflexivity|].
    left. change (zlength [x]) with 1. split; [lia|]. split; [reflexivity|]. rewrite V, digits_value_1.
    replace (10 ^ cut) with (10 * 10 ^ (cut - 1)) by (rewrite <- p10_S by lia; f_equal; lia). ring.
  - (* a digit, not the last *)
    unfold is_digit in Hx. unfold cdot, digit_byte at 1. replace (48 + x =? 46) with false by lia.
    assert (10 ^ (8 - (cut - 1) mod 9) <= 10 ^ 8) by (apply Z.pow_le_mono_r; lia).
    change (10 ^ 8) with 100000000 in *. unfold digit_byte at 1, c0.
    rewrite i32_ok by lia. mret. rewrite i32_ok by lia. mret. rewrite i32_ok by lia. mret. rewrite i8_ok by lia. mret.
    rewrite zlength_cons. pose proof (dotted_mid _ _ D) as DM. pose proof (dotted_len _ _ D) as DL.
    replace (out * 10 + (48 + x) - 48) with (out * 10 + x) by lia.
    assert (PC : 10 ^ cut = 10 * 10 ^ (cut - 1)) by (rewrite <- p10_S by lia; f_equal; lia).
    destruct (Z.eqb_spec (cut - 1) 0) as [C0|C0].
    + (* all integral digits read *)
      mret. destruct (intg_end m fu (cut - 1) (out * 10 + x) (zlength pre) l) as (l' & E & U' & L' & V & K); [exact U|exact L|lia|lia|lia| |].
      { replace (9 - (cut - 1) mod 9) with (1 + (8 - (cut - 1) mod 9)) by lia. rewrite p10_S by lia. lia. }
      exists l', [digit_byte x], mid. split; [exact E|]. split; [exact U'|]. split; [exact L'|]. split; [exact K|]. split; [reflexivity|].
      right. exists [x], ds. split; [reflexivity|]. split; [change (zlength [x]) with 1; lia|]. split; [exact D|].
      rewrite V, digits_value_1, PC, C0. change (10 ^ 0) with 1. ring.
    + replace (zlength pre =? zlength pre + (1 + zlength mid) - 1) with false by lia.
      rewrite mod9_ok by lia. mret.
      replace (pre ++ digit_byte x :: mid ++ post) with ((pre ++ [digit_byte x]) ++ mid ++ post) by (rewrite <- app_assoc; reflexivity).
      assert (LP : zlength (pre ++ [digit_byte x]) = zlength pre + 1) by (rewrite zlength_app; reflexivity).
      replace (zlength pre + (1 + zlength mid) - 1) with (zlength (pre ++ [digit_byte x]) + zlength mid - 1) by lia.
      rewrite <- LP.
      assert (DONE : forall l' mid1 mid2 V0, mid = mid1 ++ mid2 ->
        ((zlength ds <= cut - 1 /\ mid2 = [] /\ V0 = (out * 10 + x) * 10 ^ (cut - 1) + digits_value ds * 10 ^ (cut - 1 - zlength ds))
         \/ (exists ds1 ds2, ds = ds1 ++ ds2 /\ zlength ds1 = cut - 1 /\ dotted mid2 ds2 /\ V0 = (out * 10 + x) * 10 ^ (cut - 1) + digits_value ds1)) ->
        sg l' fu ((cut - 1) / 9 + 1) = V0 ->
        digit_byte x :: mid = (digit_byte x :: mid1) ++ mid2 /\
        ((zlength (x :: ds) <= cut /\ mid2 = [] /\ sg l' fu ((cut - 1) / 9 + 1) = out * 10 ^ cut + digits_value (x :: ds) * 10 ^ (cut - zlength (x :: ds)))
         \/ (exists ds1 ds2, x :: ds = ds1 ++ ds2 /\ zlength ds1 = cut /\ dotted mid2 ds2 /\ sg l' fu ((cut - 1) / 9 + 1) = out * 10 ^ cut + digits_value ds1))).
      { intros l' mid1 mid2 V0 EM HH HV. split; [rewrite EM; reflexivity|]. rewrite HV. destruct HH as [(H1 & H2 & H3)|(ds1 & ds2 & H1 & H2 & H3 & H4)].
        - left. rewrite zlength_cons. split; [lia|]. split; [exact H2|]. rewrite H3, PC, digits_value_cons.
          replace (cut - (1 + zlength ds)) with (cut - 1 - zlength ds) by lia.
          replace (10 ^ (cut - 1)) with (10 ^ zlength ds * 10 ^ (cut - 1 - zlength ds)) by (rewrite <- Z.pow_add_r by lia; f_equal; lia). ring.
        - right. exists (x :: ds1), ds2. rewrite H1. split; [reflexivity|]. split; [rewrite zlength_cons; lia|]. split; [exact H3|].
          rewrite H4, PC, digits_value_cons, H2. ring. }
      destruct ((cut - 1) mod 9 >? 0) eqn:MD.
      * destruct (IH (pre ++ [digit_byte x]) post (out * 10 + x) (cut - 1) l fuel) as (l' & mid1 & mid2 & E & U' & L' & K & EM & V); [exact U|exact L|lia|lia| |cbn in FU; lia|].
        { replace (8 - (cut - 1 - 1) mod 9) with (1 + (8 - (cut - 1) mod 9)) by lia. rewrite p10_S by lia. lia. }
        replace ((cut - 1 - 1) / 9) with ((cut - 1) / 9) in * by lia. rewrite E.
        destruct (DONE l' mid1 mid2 _ EM V eq_refl) as [D1 D2].
        exists l', (digit_byte x :: mid1), mid2. split; [f_equal; f_equal; rewrite zlength_cons; lia|].
        split; [exact U'|]. split; [exact L'|]. split; [exact K|]. split; [exact D1 | exact D2].
      * assert (P9 : 10 ^ (8 - (cut - 1) mod 9) = 100000000) by (replace (8 - (cut - 1) mod 9) with 8 by lia; reflexivity).
        rewrite P9 in O. rewrite set_ok by lia. mret.
        set (l1 := upd (Z.to_nat (fu + (cut - 1) / 9)) (out * 10 + x) l).
        assert (U1 : uok l1) by (apply uok_upd; [exact U | unfold base; lia]).
        assert (L1 : zlen l1 = 9) by (unfold l1; rewrite zlen_upd; exact L).
        destruct (IH (pre ++ [digit_byte x]) post 0 (cut - 1) l1 fuel) as (l' & mid1 & mid2 & E & U' & L' & K & EM & V); [exact U1|exact L1|lia|lia| |cbn in FU; lia|].
        { pose proof (p10 (8 - (cut - 1 - 1) mod 9) ltac:(lia)). lia. }
        replace (fu + (cut - 1) / 9 - 1) with (fu + (cut - 1 - 1) / 9) by lia. rewrite E.
        assert (TOP : sg l' fu ((cut - 1) / 9 + 1) = sg l' fu ((cut - 1 - 1) / 9 + 1) + 10 ^ (cut - 1) * (out * 10 + x)).
        { replace ((cut - 1) / 9 + 1) with (((cut - 1 - 1) / 9 + 1) + 1) by lia. rewrite sg_snoc by lia. f_equal. f_equal.
          - rewrite <- pow_base by lia. f_equal. lia.
          - rewrite K by lia. unfold l1. replace (fu + ((cut - 1 - 1) / 9 + 1)) with (fu + (cut - 1) / 9) by lia. apply zn_upd_eq. lia. }
        assert (DD : ((zlength ds <= cut - 1 /\ mid2 = [] /\ sg l' fu ((cut - 1) / 9 + 1) = (out * 10 + x) * 10 ^ (cut - 1) + digits_value ds * 10 ^ (cut - 1 - zlength ds))
         \/ (exists ds1 ds2, ds = ds1 ++ ds2 /\ zlength ds1 = cut - 1 /\ dotted mid2 ds2 /\ sg l' fu ((cut - 1) / 9 + 1) = (out * 10 + x) * 10 ^ (cut - 1) + digits_value ds1))).
        { destruct V as [(H1 & H2 & H3)|(ds1 & ds2 & H1 & H2 & H3 & H4)].
          - left. split; [exact H1|]. split; [exact H2|]. rewrite TOP, H3. ring.
          - right. exists ds1, ds2. repeat split; try assumption. rewrite TOP, H4. ring. }
        destruct (DONE l' mid1 mid2 _ EM DD eq_refl) as [D1 D2].
        exists l', (digit_byte x :: mid1), mid2. split; [f_equal; f_equal; rewrite zlength_cons; lia|].
        split; [exact U'|]. split; [exact L'|]. split; [|split; [exact D1 | exact D2]].
        intros k Hk HH. rewrite K by lia. unfold l1. apply zn_upd_ne; lia.
  - (* a point *)
    change (46 =? cdot) with true. cbv iota.
    replace (pre ++ 46 :: mid ++ post) with ((pre ++ [46]) ++ mid ++ post) by (rewrite <- app_assoc; reflexivity).
    assert (LP : zlength (pre ++ [46]) = zlength pre + 1) by (rewrite zlength_app; reflexivity).
    rewrite zlength_cons.
    replace (zlength pre + (1 + zlength mid) - 1) with (zlength (pre ++ [46]) + zlength mid - 1) by lia. rewrite <- LP.
    destruct (IH (pre ++ [46]) post out cut l fuel) as (l' & mid1 & mid2 & E & U' & L' & K & EM & V); [exact U|exact L|exact C|exact B|exact O|cbn in FU; lia|].
    rewrite E. exists l', (46 :: mid1), mid2. split; [f_equal; f_equal; rewrite zlength_cons; lia|].
    split; [exact U'|]. split; [exact L'|]. split; [exact K|]. split; [rewrite EM; reflexivity | exact V].
Qed.

(** ** The fractional digits *)

Lemma heading_fill_ok m fuel l a n hz : uok l -> zlen l = 9 -> 0 <= a -> 0 <= n -> a + n <= 9 -> 0 <= hz < 9 -> (Z.to_nat n < fuel)%nat ->
  exists l', heading_fill m fuel l (a + n - 1) (9 * n + hz) = Ret (l', a - 1, hz) /\ uok l' /\ zlen l' = 9 /\
    (forall k, 0 <= k -> zn l' k = if (a <=? k) && (k <? a + n) then 0 else zn l k).
Proof.
  revert l n. induction fuel as [|fuel IH]; intros l n U L A N B H F; [lia|]. cbn [heading_fill]. unfold DIGITS_PER_UNIT.
  destruct (Z.eq_dec n 0) as [->|Hn].
  - replace (9 * 0 + hz >=? 9) with false by lia. exists l. replace (a + 0 - 1) with (a - 1) by lia. replace (9 * 0 + hz) with hz by lia. split; [reflexivity|]. split; [exact U|]. split; [exact L|].
    intros k Hk. replace ((a <=? k) && (k <? a + 0)) with false by lia. reflexivity.
  - replace (9 * n + hz >=? 9) with true by lia. rewrite set_ok by lia. mret. rewrite i8_ok by lia. mret.
    destruct (IH (upd (Z.to_nat (a + n - 1)) 0 l) (n - 1)) as (l' & E & U' & L' & Z').
    + apply uok_upd; [exact U|]. unfold base. lia.
    + rewrite zlen_upd. lia.
    + exact A.
    + lia.
    + lia.
    + exact H.
    + lia.
    + replace (a + n - 1 - 1) with (a + (n - 1) - 1) by lia. replace (9 * n + hz - 9) with (9 * (n - 1) + hz) by lia.
      exists l'. split; [exact E|]. split; [exact U'|]. split; [exact L'|].
      intros k Hk. rewrite Z' by lia. rewrite zn_upd by lia.
      destruct (Z.eqb_spec k (a + n - 1)).
      * replace ((a <=? k) && (k <? a + n)) with true by lia. destruct (_ && _); reflexivity.
      * replace ((a <=? k) && (k <? a + (n - 1))) with ((a <=? k) && (k <? a + n)) by lia. reflexivity.
Qed.

Definition frac_phase (m : build) (fuel : nat) (bs : list Z) (last i out cut up : Z) (l : list Z) :=
  '(out, up, l) <- frac_loop m fuel bs last i out cut up l ;;
  set l up out.

Lemma frac_phase_ok m mid ds : dotted mid ds ->
  forall pre post out cut up l fuel, uok l -> zlen l = 9 -> 1 <= cut <= 9 -> 0 <= up < 9 ->
  zlength ds <= cut + 9 * up < zlength ds + 9 ->
  0 <= out -> out + 10 ^ cut <= base -> (length mid < fuel)%nat ->
  exists l', frac_phase m fuel (pre ++ mid ++ post) (zlength pre + zlength mid - 1) (zlength pre) out cut up l = Ret l' /\
    uok l' /\ zlen l' = 9 /\ (forall k, up < k -> zn l' k = zn l k) /\
    sg l' 0 (up + 1) = out * base ^ up + digits_value ds * 10 ^ (cut + 9 * up - zlength ds).
Proof.
  intros D. unfold frac_phase.
  induction D as [x Hx | x mid ds Hx D IH | mid ds D IH]; intros pre post out cut up l fuel U L C B T O1 O2 FU;
    (destruct fuel as [|fuel]; [cbn in FU; lia|]); cbn [frac_loop app]; rewrite get_mid; mret.
  - unfold is_digit in Hx. unfold cdot, digit_byte at 1. replace (48 + x =? 46) with false by lia.
    change (zlength [x]) with 1 in *. assert (up = 0) as -> by lia.
    assert (P : 10 ^ cut = 10 * 10 ^ (cut - 1)) by (rewrite <- p10_S by lia; f_equal; lia).
    pose proof (p10 (cut - 1) ltac:(lia)) as P1. unfold base in O2.
    rewrite i8_ok by lia. mret. unfold digit_byte, c0. rewrite i32_ok by lia. mret. rewrite pow10_get by lia. mret.
    replace (48 + x - 48) with x by lia.
    rewrite i32_ok by nia. mret. rewrite i32_ok by nia. mret.
    change (zlength [48 + x]) with 1. replace (zlength pre =? zlength pre + 1 - 1) with true by lia. mret.
    rewrite set_ok by lia. eexists. split; [reflexivity|]. split; [apply uok_upd; [exact U|unfold base; nia]|]. split; [rewrite zlen_upd; exact L|].
    split; [intros k Hk; apply zn_upd_ne; lia|].
    rewrite sg_1, (zn_upd_eq l 0) by lia. rewrite digits_value_1. replace (cut + 9 * 0 - 1) with (cut - 1) by lia. change (base ^ 0) with 1. ring.
  - unfold is_digit in Hx. unfold cdot, digit_byte at 1. replace (48 + x =? 46) with false by lia.
    rewrite zlength_cons in *. pose proof (dotted_mid _ _ D) as DM. pose proof (dotted_len _ _ D) as DL.
    assert (P : 10 ^ cut = 10 * 10 ^ (cut - 1)) by (rewrite <- p10_S by lia; f_equal; lia).
    pose proof (p10 (cut - 1) ltac:(lia)) as P1. unfold base in O2.
    rewrite i8_ok by lia. mret. unfold digit_byte at 1, c0. rewrite i32_ok by lia. mret. rewrite pow10_get by lia. mret.
    replace (48 + x - 48) with x by lia.
    rewrite i32_ok by nia. mret. rewrite i32_ok by nia. mret.
    rewrite zlength_cons. replace (zlength pre =? zlength pre + (1 + zlength mid) - 1) with false by lia.
    replace (pre ++ digit_byte x :: mid ++ post) with ((pre ++ [digit_byte x]) ++ mid ++ post) by (rewrite <- app_assoc; reflexivity).
    assert (LP : zlength (pre ++ [digit_byte x]) = zlength pre + 1) by (rewrite zlength_app; reflexivity).
    replace (zlength pre + (1 + zlength mid) - 1) with (zlength (pre ++ [digit_byte x]) + zlength mid - 1) by lia. rewrite <- LP.
    destruct (cut - 1 >? 0) eqn:C1.
    + destruct (IH (pre ++ [digit_byte x]) post (out + x * 10 ^ (cut - 1)) (cut - 1) up l fuel) as (l' & E & U' & L' & K & V);
        [exact U|exact L|lia|lia|lia|nia|unfold base; nia|cbn in FU; lia|].
      rewrite E. exists l'. split; [reflexivity|]. split; [exact U'|]. split; [exact L'|]. split; [exact K|].
      rewrite V, digits_value_cons. replace (cut + 9 * up - (1 + zlength ds)) with (cut - 1 + 9 * up - zlength ds) by lia.
      assert (Q : 10 ^ (cut - 1) * base ^ up = 10 ^ zlength ds * 10 ^ (cut - 1 + 9 * up - zlength ds)).
      { rewrite <- pow_base by lia. rewrite <- !Z.pow_add_r by lia. f_equal. lia. }
      replace ((out + x * 10 ^ (cut - 1)) * base ^ up) with (out * base ^ up + x * (10 ^ (cut - 1) * base ^ up)) by ring. rewrite Q. ring.
    + assert (cut = 1) as -> by lia. change (10 ^ (1 - 1)) with 1 in *.
      rewrite set_ok by lia. mret. set (l1 := upd _ _ l).
      assert (U1 : uok l1) by (apply uok_upd; [exact U | unfold base; lia]).
      assert (L1 : zlen l1 = 9) by (unfold l1; rewrite zlen_upd; exact L).
      destruct (IH (pre ++ [digit_byte x]) post 0 9 (up - 1) l1 fuel) as (l' & E & U' & L' & K & V);
        [exact U1|exact L1|lia|lia|lia|lia|rewrite pow10_9; lia|cbn in FU; lia|].
      unfold DIGITS_PER_UNIT. rewrite E. exists l'. split; [reflexivity|]. split; [exact U'|]. split; [exact L'|]. split.
      * intros k Hk. rewrite K by lia. apply zn_upd_ne; lia.
      * rewrite sg_snoc by lia. replace (up - 1 + 1) with up in V by lia. rewrite V, Z.add_0_l, K by lia.
        unfold l1. rewrite zn_upd_eq by lia. rewrite digits_value_cons.
        replace (1 + 9 * up - (1 + zlength ds)) with (9 + 9 * (up - 1) - zlength ds) by lia.
        assert (Q : base ^ up = 10 ^ zlength ds * 10 ^ (9 + 9 * (up - 1) - zlength ds)).
        { rewrite <- pow_base by lia. rewrite <- !Z.pow_add_r by lia. f_equal. lia. }
        rewrite Q. ring.
  - change (46 =? cdot) with true. cbv iota.
    replace (pre ++ 46 :: mid ++ post) with ((pre ++ [46]) ++ mid ++ post) by (rewrite <- app_assoc; reflexivity).
    assert (LP : zlength (pre ++ [46]) = zlength pre + 1) by (rewrite zlength_app; reflexivity).
    rewrite zlength_cons. replace (zlength pre + (1 + zlength mid) - 1) with (zlength (pre ++ [46]) + zlength mid - 1) by lia. rewrite <- LP.
    apply IH; try assumption. cbn in FU. lia.
Qed.

(** ** The conversion *)

Lemma convert_eq m self bs s frac digits hz : convert m self bs s frac digits hz =
  (ig <- i8 m (digits - frac) ;;
  iu <- get_units m ig ;;
  fu <- get_units m frac ;;
  up <- usize m (iu + fu - 1) ;;
  '(l, up, i) <-
    (if iu >? 0 then
       cut <- i8 m (digits - frac) ;;
       intg_phase m (S (length bs)) bs (s_last s) (s_cfirst s) 0 cut (as_isize up) (fd_lsu self)
     else Ret (fd_lsu self, as_isize up, s_cfirst s)) ;;
  l <-
    (if fu >? 0 then
       '(l, up, hz) <- heading_fill m fill_fuel l up hz ;;
       cut <- i8 m (DIGITS_PER_UNIT - hz) ;;
       frac_phase m (S (length bs)) bs (s_last s) i 0 cut up l
     else Ret l) ;;
  ig <- i8 m (digits - frac) ;;
  let d := mkfd ig frac l in
  Ret (if s_neg s then set_neg d else d)).
Proof. reflexivity. Qed.

Definition signed (b : bool) (d : fd) : fd := if b then set_neg d else d.

Lemma convert_ok m self pre mid post ds s raw : uok (fd_lsu self) -> zlen (fd_lsu self) = 9 ->
  dotted mid ds -> s_cfirst s = zlength pre -> s_last s = zlength pre + zlength mid - 1 ->
  let frac := Z.max 0 raw in
  let digits := Z.max (zlength ds + Z.max 0 (- raw)) frac in
  digits <= 65 ->
  exists l', convert m self (pre ++ mid ++ post) s frac digits (Z.max 0 (raw - zlength ds)) =
      Ret (signed (s_neg s) (mkfd (digits - frac) frac l')) /\
    uok l' /\ zlen l' = 9 /\
    sg l' 0 (units_for (digits - frac) + units_for frac) = digits_value ds * 10 ^ (9 * units_for frac - raw) /\
    (forall k, units_for (digits - frac) + units_for frac <= k -> zn l' k = zn (fd_lsu self) k).
Proof.
  intros U L D CF LA frac digits B. pose proof (dotted_len _ _ D) as DL. pose proof (dotted_mid _ _ D) as DM.
  rewrite convert_eq, LA, CF. rewrite i8_ok by lia. mret. rewrite !get_units_ok by lia. mret. mret.
  set (iu := units_for (digits - frac)). set (fu := units_for frac).
  assert (HI : 9 * iu - 8 <= digits - frac <= 9 * iu) by (unfold iu, units_for; lia).
  assert (HF : 9 * fu - 8 <= frac <= 9 * fu) by (unfold fu, units_for; lia).
  assert (H9 : 1 <= iu + fu <= 9) by lia.
  rewrite usize_ok by lia. mret. rewrite as_isize_id by lia.
  assert (LB : (length mid < S (length (pre ++ mid ++ post)))%nat) by (rewrite !app_length; lia).
  set (fuel := S (length (pre ++ mid ++ post))) in *. clearbody fuel.
  destruct (Z.eq_dec iu 0) as [I0|I0].
  - (* no integral digits *)
    replace (iu >? 0) with false by lia. mret.
    assert (EF : digits = frac) by lia. replace (fu >? 0) with true by lia.
    assert (ER : frac = raw) by lia. set (hz := Z.max 0 (raw - zlength ds)) in *. assert (EH : hz = frac - zlength ds) by lia.
    set (n := hz / 9). set (r := hz mod 9). assert (HH : hz = 9 * n + r) by (unfold n, r; lia).
    assert (R : 0 <= r < 9) by (unfold r; lia).
    destruct (heading_fill_ok m fill_fuel (fd_lsu self) (fu - n) n r) as (l1 & E1 & U1 & L1 & K1); [exact U|exact L|lia|lia|lia|exact R|unfold fill_fuel; lia|].
    replace (iu + fu - 1) with (fu - n + n - 1) by lia. rewrite HH, E1. mret. unfold DIGITS_PER_UNIT.
    rewrite i8_ok by lia. mret.
    destruct (frac_phase_ok m mid ds D pre post 0 (9 - r) (fu - n - 1) l1 fuel) as (l2 & E2 & U2 & L2 & K2 & V2);
      [exact U1|exact L1|lia|lia|lia|lia| |exact LB|].
    { assert (10 ^ (9 - r) <= 10 ^ 9) by (apply Z.pow_le_mono_r; lia). rewrite pow10_9 in *. lia. }
    rewrite E2. mret. mret. exists l2. split; [reflexivity|]. split; [exact U2|]. split; [exact L2|]. split.
    + replace (iu + fu) with ((fu - n - 1 + 1) + n) by lia. rewrite sg_app by lia. rewrite V2.
      rewrite (sg_0 l2 (0 + (fu - n - 1 + 1)) n).
      2:{ intros k Hk. rewrite K2 by lia. rewrite K1 by lia. replace ((fu - n <=? k) && (k <? fu - n + n)) with true by lia. reflexivity. }
      replace (9 - r + 9 * (fu - n - 1) - zlength ds) with (9 * fu - raw) by lia. ring.
    + intros k Hk. rewrite K2 by lia. rewrite K1 by lia. replace ((fu - n <=? k) && (k <? fu - n + n)) with false by lia. reflexivity.
  - replace (iu >? 0) with true by lia. mret.
    assert (DG : digits = zlength ds + Z.max 0 (- raw)) by lia.
    assert (RP : fu <> 0 -> 0 < raw /\ digits - frac = zlength ds - raw) by (clear - HF DG; subst digits frac; lia).
    set (cut := digits - frac) in *.
    assert (CU : (cut - 1) / 9 = iu - 1) by (unfold iu, units_for; lia).
    destruct (intg_phase_ok m fu mid ds D ltac:(lia) pre post 0 cut (fd_lsu self) fuel) as (l1 & mid1 & mid2 & E1 & U1 & L1 & K1 & EM & V1);
      [exact U|exact L|lia|lia| |exact LB|].
    { pose proof (p10 (8 - (cut - 1) mod 9) ltac:(lia)). lia. }
    rewrite CU in *. replace (iu - 1 + 1) with iu in V1 by lia.
    replace (iu + fu - 1) with (fu + (iu - 1)) by lia. rewrite E1. mret.
    replace (Z.max 0 (raw - zlength ds)) with 0 by lia.
    destruct (Z.eq_dec fu 0) as [F0|F0].
    + replace (fu >? 0) with false by lia. mret. mret. exists l1. split; [reflexivity|]. split; [exact U1|]. split; [exact L1|]. split.
      * rewrite F0, Z.add_0_r. rewrite F0 in V1. replace (9 * 0 - raw) with (cut - zlength ds) by lia.
        destruct V1 as [(_ & _ & V1)|(ds1 & ds2 & EQ & Q1 & D2 & _)]; [rewrite V1; ring|].
        pose proof (dotted_len _ _ D2). rewrite EQ, zlength_app in *. lia.
      * intros k Hk. apply K1; lia.
    + replace (fu >? 0) with true by lia.
      destruct (heading_fill_ok m fill_fuel l1 fu 0 0) as (l2 & E2 & U2 & L2 & K2); [exact U1|exact L1|lia|lia|lia|lia|unfold fill_fuel; lia|].
      replace (fu + 0 - 1) with (fu - 1) in E2 by lia. change (9 * 0 + 0) with 0 in E2. rewrite E2. mret. clear E2.
      unfold DIGITS_PER_UNIT. rewrite i8_ok by lia. mret.
      destruct V1 as [(V1 & _ & _)|(ds1 & ds2 & EQ & Q1 & D2 & V1)]; [specialize (RP F0); clear - RP V1; lia|].
      assert (LS : zlength ds = zlength ds1 + zlength ds2) by (rewrite EQ; apply zlength_app).
      replace (pre ++ mid ++ post) with ((pre ++ mid1) ++ mid2 ++ post) by (rewrite EM, <- !app_assoc; reflexivity).
      replace (zlength pre + zlength mid - 1) with (zlength (pre ++ mid1) + zlength mid2 - 1) by (rewrite EM, !zlength_app; lia).
      replace (zlength pre + zlength mid1) with (zlength (pre ++ mid1)) by apply zlength_app.
      destruct (frac_phase_ok m mid2 ds2 D2 (pre ++ mid1) post 0 9 (fu - 1) l2 fuel) as (l3 & E3 & U3 & L3 & K3 & V3);
        [exact U2|exact L2|lia|lia|lia|lia|rewrite pow10_9; lia|rewrite EM, app_length in LB; lia|].
      change (9 - 0) with 9. rewrite E3. mret. mret. exists l3. split; [reflexivity|]. split; [exact U3|]. split; [exact L3|].
      assert (K : forall k, fu <= k -> zn l3 k = zn l1 k).
      { clear - K2 K3 H9 HI HF F0. intros k Hk. rewrite K3 by lia. rewrite K2 by lia. replace ((fu <=? k) && (k <? fu + 0)) with false by lia. reflexivity. }
      split.
      * assert (X1 : raw = zlength ds2) by (specialize (RP F0); clear - RP LS Q1; lia).
        assert (X2 : 0 <= 9 * fu - raw) by (specialize (RP F0); clear - RP HF; lia).
        clear - HI HF H9 I0 F0 V1 V3 K EQ X1 X2.
        replace (iu + fu) with ((fu - 1 + 1) + iu) by lia. rewrite sg_app by lia. rewrite V3.
        replace (0 + (fu - 1 + 1)) with fu by lia. rewrite (sg_ext l3 l1 fu fu iu) by (intros; apply K; lia). rewrite V1, EQ, digits_value_app.
        replace (fu - 1 + 1) with fu by lia. replace (9 + 9 * (fu - 1) - zlength ds2) with (9 * fu - raw) by lia.
        replace (base ^ fu) with (10 ^ zlength ds2 * 10 ^ (9 * fu - raw)); [ring|].
        rewrite <- pow_base by lia. rewrite <- Z.pow_add_r by lia. f_equal. lia.
      * clear - K K1 HI HF H9 I0 F0. intros k Hk. rewrite K by lia. apply K1; lia.
Qed.

(** ** The digit counts *)
Lemma layout_ok m F e d : 0 <= F <= d -> 1 <= d <= 127 -> -30 <= e <= 65 ->
  let raw := F - e in let frac := Z.max 0 raw in let digits := Z.max (d + Z.max 0 (- raw)) frac in
  (digits <= 65 /\ layout m F e d = Ret (frac, digits, Z.max 0 (raw - d))) \/
  (65 < digits /\ ((exists f g h, layout m F e d = Ret (f, g, h) /\ MAX_DIGITS < as_usize g) \/
                   (m = Debug /\ 62 < d /\ layout m F e d = Panic POverflow))).
Proof.
  intros HF HD HE raw frac digits. unfold layout. rewrite !as_i8_id by lia.
  fold raw.
  destruct (Z_le_dec raw 127) as [R|R].
  - rewrite i8_ok by lia. mret. destruct (Z.compare_spec raw 0) as [C|C|C].
    + assert (frac = 0 /\ digits = d) as [-> ->] by lia.
      destruct (Z_le_dec d 65); [left; split; [lia|]; rewrite C; f_equal; f_equal; lia | right; split; [lia|]; left].
      do 3 eexists. split; [reflexivity|]. rewrite as_usize_id by lia. unfold MAX_DIGITS. lia.
    + destruct (Z_le_dec (d - raw) 127) as [T|T].
      * rewrite i8_ok by lia. mret. destruct (Z_le_dec digits 65); [left; split; [lia|]; f_equal; f_equal; [f_equal|]; lia | right; split; [lia|]; left].
        do 3 eexists. split; [reflexivity|]. rewrite as_usize_id by lia. unfold MAX_DIGITS. lia.
      * right. split; [lia|]. unfold i8, chk. replace ((-128 <=? d - raw) && (d - raw <=? 127)) with false by lia.
        destruct m; [right; split; [reflexivity|]; split; [lia|reflexivity] | left]. cbn [bind].
        do 3 eexists. split; [reflexivity|]. unfold MAX_DIGITS, as_usize. lia.
    + destruct (d >? raw) eqn:G.
      * destruct (Z_le_dec d 65); [left; split; [lia|]; f_equal; f_equal; [f_equal|]; lia | right; split; [lia|]; left].
        do 3 eexists. split; [reflexivity|]. rewrite as_usize_id by lia. unfold MAX_DIGITS. lia.
      * rewrite i8_ok by lia. mret.
        destruct (Z_le_dec raw 65); [left; split; [lia|]; f_equal; f_equal; [f_equal|]; lia | right; split; [lia|]; left].
        do 3 eexists. split; [reflexivity|]. rewrite as_usize_id by lia. unfold MAX_DIGITS. lia.
  - right. split; [lia|]. assert (EI : i8 m raw = match m with Debug => Panic POverflow | Release => Ret (raw - 256) end).
    { unfold i8, chk. replace ((-128 <=? raw) && (raw <=? 127)) with false by lia. destruct m; [reflexivity|]. f_equal. lia. }
    rewrite EI. destruct m; [right; split; [reflexivity|]; split; [lia|reflexivity] | left]. mret.
    replace (raw - 256 ?= 0) with Lt by (symmetry; apply Z.compare_lt_iff; lia).
    unfold i8, chk. replace ((-128 <=? d - (raw - 256)) && (d - (raw - 256) <=? 127)) with false by lia. mret.
    do 3 eexists. split; [reflexivity|]. unfold MAX_DIGITS, as_usize. lia.
Qed.
