(** * Proofs about rounding (src/round.rs). *)
From Coq Require Import ZArith List Bool Lia QArith.
From Coq Require Import ZifyBool ZifyNat.
Import ListNotations.
From Verif Require Import Rust Tables Model_Base Model_Cmp Model_Round Model_Arith Spec Lib Cmp AddSub Sign QLib.
Open Scope Z_scope.
Ltac Zify.zify_post_hook ::= Z.div_mod_to_equations.

Lemma round_arm_ok m u md half : 0 <= u < base -> 0 < md <= 100000000 -> md = 2 * half ->
  round_arm m u md half = Ret (md * ((u + half) / md)).
Proof.
  intros Hu Hm Hh. unfold round_arm. cst.
  rewrite i32_rem_ok by lia. mret.
  assert (Hr : 0 <= u mod md < md) by (apply Z.mod_pos_bound; lia).
  pose proof (Z.div_mod u md ltac:(lia)) as E.
  assert (Hq : 0 <= u / md) by (apply Z.div_pos; lia).
  set (q := u / md) in *. set (r := u mod md) in *. clearbody q r.
  assert (0 <= md * q <= u) by nia.
  rewrite i32_ok by lia. mret.
  destruct (Z.geb_spec r half) as [G|G].
  - rewrite i32_ok by lia. f_equal.
    replace (u + half) with (r - half + (q + 1) * md) by lia. rewrite Z.div_add by lia.
    rewrite (Z.div_small (r - half)) by lia. lia.
  - f_equal. replace (u + half) with (r + half + q * md) by lia. rewrite Z.div_add by lia.
    rewrite (Z.div_small (r + half)) by lia. lia.
Qed.

Lemma round_unit_ok m pos u : 1 <= pos <= 8 -> 0 <= u < base ->
  round_unit m pos u = Ret (10 ^ pos * ((u + 5 * 10 ^ (pos - 1)) / 10 ^ pos)).
Proof.
  intros Hp Hu.
  assert (D : pos = 1 \/ pos = 2 \/ pos = 3 \/ pos = 4 \/ pos = 5 \/ pos = 6 \/ pos = 7 \/ pos = 8) by lia.
  destruct D as [->|[->|[->|[->|[->|[->|[->| ->]]]]]]]; cbn [round_unit]; rewrite round_arm_ok by (try assumption; lia); reflexivity.
Qed.

Lemma carry_loop_ok m n l i c : uok l -> 0 <= i -> i + Z.of_nat n <= zlen l -> 0 <= c <= 1 ->
  exists l' c', carry_loop m n l i c = Ret (l', c') /\ wrote l l' i (Z.of_nat n) /\ 0 <= c' <= 1 /\
    seg l' i n + base ^ Z.of_nat n * c' = seg l i n + c.
Proof.
  revert l i c; induction n as [|n IH]; intros l i c Hu Hi Hl Hc.
  - exists l, c. cbn [carry_loop seg]. rewrite Z.pow_0_r.
    split; [reflexivity|]. split; [apply wrote_refl; assumption|]. lia.
  - cbn [carry_loop]. rewrite get_ok by lia. mret.
    destruct (add_with_carry_ok m (zn l i) 0 c) as (r0 & c0 & -> & Hr0 & Hc0 & E0);
      try (apply uok_zn; assumption); [unfold base; lia|assumption|]. mret.
    rewrite set_ok by lia. mret.
    pose proof (wrote_upd l i r0 Hu ltac:(lia) Hr0) as W0.
    destruct (Z.eqb_spec c0 0) as [->|Hn].
    + exists (upd (Z.to_nat i) r0 l), 0. split; [reflexivity|].
      split. { eapply wrote_trans; [exact W0 | apply wrote_refl with (n := 0); apply W0 | lia | | | ]; try lia. instantiate (1 := i). lia. lia. }
      split; [lia|]. cbn [seg]. rewrite zn_upd_eq by lia.
      rewrite (seg_upd_out l (i + 1) n i) by lia. lia.
    + destruct (IH (upd (Z.to_nat i) r0 l) (i + 1) c0) as (l' & c' & E & W & Hc' & Es);
        try (rewrite ?zlen_upd; lia); [apply W0|].
      exists l', c'. split; [exact E|]. split; [|split; [assumption|]].
      * eapply wrote_trans; [exact W0 | exact W | lia | lia | lia | lia].
      * cbn [seg]. destruct W as (_ & _ & F). rewrite (F i) by lia. rewrite zn_upd_eq by lia.
        rewrite (seg_upd_out l (i + 1) n i) in Es by lia.
        replace (Z.of_nat (S n)) with (Z.of_nat n + 1) by lia. rewrite base_S by lia. nia.
Qed.

(** The number of units [T] that replaces the units from [idx] on. *)
Definition rounded (U pos carry : Z) : Z :=
  if pos =? 0 then U + carry else 10 ^ pos * ((U + 5 * 10 ^ (pos - 1)) / 10 ^ pos).

Definition signed (s : bool) (d : fd) : fd := if s then set_neg d else d.

(** What [round_half_up] leaves when it returns. *)
Definition rounding (l : list Z) (s : bool) (I G S fr : Z) (d' : fd) : Prop :=
  exists l' I', d' = signed s (mkfd (9 * I') fr l') /\ uok l' /\ zlen l' = 9 /\
    (I' = I /\ S < base ^ (I + G) \/ I' = I + 1 /\ S = base ^ (I + G) /\ I + G < 9) /\
    sg l' 0 (I' + G) = S /\ (forall k, I' + G <= k -> zn l' k = zn l k).

Lemma unit_round_split u rest pos : 1 <= pos <= 8 -> 
  10 ^ pos * ((u + base * rest + 5 * 10 ^ (pos - 1)) / 10 ^ pos) =
  10 ^ pos * ((u + 5 * 10 ^ (pos - 1)) / 10 ^ pos) + base * rest.
Proof.
  intros Hp. assert (H : base = 10 ^ (9 - pos) * 10 ^ pos) by (rewrite <- Z.pow_add_r by lia; unfold base; replace (9 - pos + pos) with 9 by lia; reflexivity).
  replace (u + base * rest + 5 * 10 ^ (pos - 1)) with ((u + 5 * 10 ^ (pos - 1)) + (10 ^ (9 - pos) * rest) * 10 ^ pos) by (rewrite H; ring).
  rewrite Z.div_add by (apply Z.pow_nonzero; lia). rewrite H. ring.
Qed.

Lemma unit_round_bound u pos : 1 <= pos <= 8 -> 0 <= u < base ->
  0 <= 10 ^ pos * ((u + 5 * 10 ^ (pos - 1)) / 10 ^ pos) <= base.
Proof.
  intros Hp Hu.
  assert (D : pos = 1 \/ pos = 2 \/ pos = 3 \/ pos = 4 \/ pos = 5 \/ pos = 6 \/ pos = 7 \/ pos = 8) by lia.
  cst. destruct D as [->|[->|[->|[->|[->|[->|[->| ->]]]]]]];
  match goal with |- 0 <= ?a * _ <= _ => let b := eval vm_compute in a in change a with b end;
  match goal with |- context [5 * 10 ^ ?x] => let b := eval vm_compute in (5 * 10 ^ x) in change (5 * 10 ^ x) with b end;
  lia.
Qed.

Lemma as_i8_9 I : 0 <= I <= 10 -> as_i8 (I * DIGITS_PER_UNIT) = 9 * I.
Proof. intros. cst. rewrite as_i8_id by lia. lia. Qed.

(** The tail: carry propagation, clearing, sign. *)
Lemma round_tail m d l r I G clear fr carry :
  uok l -> zlen l = 9 -> 0 <= I -> 0 <= G -> I + G <= 9 -> 0 <= clear <= r -> r <= I + G -> 0 <= carry <= 1 ->
  (carry = 1 -> sg l clear (r - clear) = 0) -> -128 <= fd_intg d < 128 ->
  let S := sg l clear (r - clear) * base ^ clear + base ^ r * (sg l r (I + G - r) + carry) in
  let o := '(l, I) <-
    (if carry >? 0 then
       _ <- slice l r (I + G) ;;
       '(l, carry) <- carry_loop m (Z.to_nat (I + G - r)) l r carry ;;
       if carry >? 0 then
         l <- set l (I + G) 1 ;; Ret (l, I + 1)
       else Ret (l, I)
     else Ret (l, I)) ;;
    l <- fill l 0 clear 0 ;;
    let neg := is_neg d in
    let d := mkfd (as_i8 (I * DIGITS_PER_UNIT)) fr l in
    Ret (if neg then set_neg d else d) in
  (exists d', o = Ret d' /\ rounding l (neg d) I G S fr d') \/
  (o = Panic PIndex /\ I + G = 9 /\ base ^ 9 <= S).
Proof.
  intros Hu Hl HI HG HN Hc Hr Hcar Hc0 Hd S o. subst o.
  set (N := I + G) in *.
  assert (HW : exists l1 c1, (if carry >? 0 then
       _ <- slice l r N ;;
       '(l, carry) <- carry_loop m (Z.to_nat (N - r)) l r carry ;;
       if carry >? 0 then
         l <- set l N 1 ;; Ret (l, I + 1)
       else Ret (l, I)
     else Ret (l, I)) = (if c1 >? 0 then l <- set l1 N 1 ;; Ret (l, I + 1) else Ret (l1, I))
     /\ wrote l l1 r (N - r) /\ 0 <= c1 <= 1 /\ sg l1 r (N - r) + base ^ (N - r) * c1 = sg l r (N - r) + carry).
  { destruct (Z.gtb_spec carry 0) as [G0|G0].
    - rewrite slice_ok by lia. mret.
      destruct (carry_loop_ok m (Z.to_nat (N - r)) l r carry) as (l1 & c1 & E & W & Hc1 & Es); try lia; auto.
      rewrite E. mret. exists l1, c1. split; [reflexivity|].
      replace (Z.of_nat (Z.to_nat (N - r))) with (N - r) in * by lia. split; [exact W|]. split; [exact Hc1|].
      rewrite !sg_of_seg in Es. replace (Z.of_nat (Z.to_nat (N - r))) with (N - r) in * by lia. exact Es.
    - exists l, 0. cbn. split; [reflexivity|]. split; [apply wrote_refl; assumption|]. split; [lia|]. lia. }
  destruct HW as (l1 & c1 & -> & W1 & Hc1 & E1).
  pose proof (wrote_zlen _ _ _ _ W1) as L1. pose proof (proj1 (proj2 W1)) as U1.
  assert (A1 : 0 <= N - clear) by (subst N; clear - HN Hc Hr; lia). assert (A2 : 0 <= N - r) by (subst N; clear - HN Hc Hr; lia).
  assert (Hlow : sg l1 clear (r - clear) = sg l clear (r - clear)) by (eapply wrote_sg; [exact W1 | lia | lia]).
  pose proof (pow_base_pos clear ltac:(lia)) as Pc.
  pose proof (pow_base_pos (r - clear) ltac:(lia)) as Pb.
  pose proof (pow_base_pos (N - r) ltac:(lia)) as Pa.
  assert (PR : base ^ r = base ^ clear * base ^ (r - clear)) by (rewrite <- base_pow_split by lia; f_equal; lia).
  assert (PNC : base ^ (N - clear) = base ^ (r - clear) * base ^ (N - r)) by (rewrite <- base_pow_split by lia; f_equal; lia).
  assert (HP : base ^ N = base ^ clear * base ^ (N - clear)) by (rewrite <- base_pow_split by lia; f_equal; lia).
  assert (SP : sg l1 clear (N - clear) = sg l1 clear (r - clear) + base ^ (r - clear) * sg l1 r (N - r)).
  { replace (N - clear) with ((r - clear) + (N - r)) by lia. rewrite sg_app by lia. do 3 f_equal. lia. }
  assert (HS : S = base ^ clear * sg l1 clear (N - clear) + base ^ N * c1).
  { subst S. rewrite SP, HP, PNC, PR, <- Hlow, <- E1. ring. }
  pose proof (sg_bound l1 clear (N - clear) U1 A1) as B1.
  assert (T0 : c1 = 1 -> sg l1 clear (N - clear) = 0).
  { intros ->. pose proof (sg_bound l r (N - r) Hu A2) as Br. pose proof (sg_bound l1 r (N - r) U1 A2) as Br1.
    assert (T : sg l1 r (N - r) = 0 /\ carry = 1) by (clear - E1 Br Br1 Hcar; lia). destruct T as (T1 & T2).
    rewrite SP, Hlow, (Hc0 T2), T1. ring. }
  clearbody S. clear Hlow E1 SP PNC PR Pb Pa.
  assert (Fin : forall l2 I', uok l2 -> zlen l2 = 9 -> 0 <= I' <= 10 -> clear <= I' + G ->
     sg l2 clear (I' + G - clear) * base ^ clear = S ->
     (I' = I /\ S < base ^ N \/ I' = I + 1 /\ S = base ^ N /\ N < 9) ->
     (forall k, I' + G <= k -> zn l2 k = zn l k) ->
     exists d', (l <- fill l2 0 clear 0 ;;
      let neg := is_neg d in
      let d := mkfd (as_i8 (I' * DIGITS_PER_UNIT)) fr l in
      Ret (if neg then set_neg d else d)) = Ret d' /\ rounding l (neg d) I G S fr d').
  { clear HS HP T0 B1 Pc Hc0. intros l2 I' U2 L2 HI' Hcl Es Hor Hhi. rewrite fill_ok by lia. mret.
    eexists; split; [reflexivity|]. cbv zeta. rewrite is_neg_ok by assumption. rewrite as_i8_9 by assumption.
    assert (ZL : zlen (repeat 0 (Z.to_nat (clear - 0))) = clear) by (rewrite zlen_repeat; lia).
    assert (ZB : forall k, 0 <= k -> zn (blit l2 0 (repeat 0 (Z.to_nat (clear - 0)))) k = if k <? clear then 0 else zn l2 k).
    { intros k Hk. rewrite zn_blit by (rewrite ?ZL; lia). rewrite ZL, zn_repeat0.
      destruct (Z.ltb_spec k clear); [replace ((0 <=? k) && (k <? 0 + clear)) with true by lia | replace ((0 <=? k) && (k <? 0 + clear)) with false by lia]; reflexivity. }
    exists (blit l2 0 (repeat 0 (Z.to_nat (clear - 0)))), I'.
    split; [reflexivity|]. split; [apply uok_blit; [assumption|apply uok_repeat0]|].
    split; [rewrite zlen_blit; [assumption | lia | rewrite ZL; lia]|]. split; [exact Hor|].
    split.
    - replace (I' + G) with (clear + (I' + G - clear)) by lia. rewrite sg_app by lia.
      rewrite (sg_0 _ 0 clear) by (intros k Hk; rewrite ZB by lia; replace (k <? clear) with true by lia; reflexivity).
      rewrite <- Es. rewrite (sg_ext _ l2 (0 + clear) clear).
      + rewrite Z.mul_comm. lia.
      + intros k Hk. rewrite ZB by lia. replace (0 + clear + k <? clear) with false by lia. reflexivity.
    - intros k Hk. rewrite ZB by lia. replace (k <? clear) with false by lia. apply Hhi. lia. }
  destruct (Z.gtb_spec c1 0) as [G1|G1].
  - assert (c1 = 1) by (clear - Hc1 G1; lia). subst c1. clear Hc1 G1 Hc0 B1.
    destruct (Z.eq_dec N 9) as [E9|E9].
    + right. rewrite set_out by (clear HS HP; lia). split; [reflexivity|]. split; [exact E9|]. rewrite (T0 eq_refl), Z.mul_0_r, E9 in HS. lia.
    + left. rewrite set_ok by (clear HS HP; lia). mret.
      pose proof (wrote_upd l1 N 1 U1 ltac:(clear HS HP; lia) ltac:(unfold base; lia)) as W2.
      specialize (T0 eq_refl). rewrite T0 in HS.
      apply Fin; try (clear HS HP; lia).
      * apply W2.
      * rewrite zlen_upd. lia.
      * rewrite HS, HP. clear HS HP. replace (I + 1 + G - clear) with ((N - clear) + 1) by lia. rewrite sg_snoc by lia.
        replace (clear + (N - clear)) with N by lia. rewrite zn_upd_eq by lia.
        rewrite sg_upd_out by lia. rewrite T0. ring.
      * right. split; [reflexivity|]. split; [rewrite HS; ring | clear HS HP; lia].
      * intros k Hk. clear HS HP. rewrite zn_upd_ne by lia. apply W1; lia.
  - left. assert (c1 = 0) by (clear - Hc1 G1; lia). subst c1. apply Fin; clear T0 Hc0; auto; try (clear HS HP B1; lia).
    + replace (I + G - clear) with (N - clear) by lia. rewrite HS. ring.
    + left. split; [reflexivity|]. rewrite HS, HP. nia.
    + intros k Hk. apply W1; lia.
Qed.

Lemma rounding_frame l l1 s I G S fr d' : (forall k, I + G <= k -> zn l1 k = zn l k) ->
  rounding l1 s I G S fr d' -> rounding l s I G S fr d'.
Proof.
  intros H (l' & I' & E & U & L & Hor & Es & Hf). exists l', I'. repeat (split; [assumption|]).
  intros k Hk. rewrite Hf by assumption. apply H. destruct Hor as [[-> _]|[-> _]]; lia.
Qed.

Lemma round_half_up_ok m d I G trunc fr carry :
  uok (fd_lsu d) -> zlen (fd_lsu d) = 9 -> 0 <= I -> 0 <= G -> I + G <= 9 ->
  0 <= trunc < 128 -> trunc / 9 <= I + G -> (trunc mod 9 <> 0 -> trunc / 9 < I + G /\ carry = 0) ->
  0 <= carry <= 1 -> -128 <= fd_intg d < 128 ->
  let idx := trunc / 9 in
  let S := base ^ idx * rounded (sg (fd_lsu d) idx (I + G - idx)) (trunc mod 9) carry in
  (exists d', round_half_up m d I G trunc fr carry = Ret d' /\ rounding (fd_lsu d) (neg d) I G S fr d') \/
  (round_half_up m d I G trunc fr carry = Panic PIndex /\ I + G = 9 /\ base ^ 9 <= S).
Proof.
  intros Hu Hl HI HG HN Ht Hi Hp Hc Hd idx S.
  unfold round_half_up. rewrite as_i8_id by lia. rewrite div9_ok, mod9_ok by lia. mret. mret.
  fold idx in Hi, Hp |- *. set (pos := trunc mod 9) in *. assert (Hpos : 0 <= pos < 9) by (subst pos; apply Z.mod_pos_bound; lia).
  assert (Hidx : 0 <= idx) by (subst idx; apply Z.div_pos; lia).
  clearbody pos idx. cbv zeta. set (l := fd_lsu d) in *.
  subst S. unfold rounded.
  destruct (Z.eqb_spec pos 0) as [->|Hn]; cbn [negb].
  - mret. pose proof (round_tail m d l idx I G idx fr carry Hu Hl HI HG HN ltac:(lia) ltac:(lia) Hc) as T.
    cbv zeta in T. rewrite Z.sub_diag in T. rewrite (sg_nil l idx 0) in T by lia.
    specialize (T ltac:(intros; reflexivity) Hd). rewrite Z.mul_0_l, Z.add_0_l in T. exact T.
  - destruct (Hp Hn) as [Hlt ->]. rewrite get_ok by lia. mret.
    pose proof (uok_zn l idx Hu) as Hui. rewrite round_unit_ok by (try assumption; lia). mret.
    pose proof (unit_round_bound (zn l idx) pos ltac:(lia) Hui) as Hw.
    set (w := 10 ^ pos * ((zn l idx + 5 * 10 ^ (pos - 1)) / 10 ^ pos)) in *.
    assert (HE : exists u' c', (if w >=? UNIT then u'0 <- i32 m (w - UNIT) ;; Ret (u'0, 1) else Ret (w, 0)) = Ret (u', c')
              /\ 0 <= u' < base /\ 0 <= c' <= 1 /\ u' + base * c' = w /\ (c' = 1 -> u' = 0)).
    { cst. destruct (Z.geb_spec w 1000000000).
      - rewrite i32_ok by lia. mret. do 2 eexists. split; [reflexivity|]. lia.
      - do 2 eexists. split; [reflexivity|]. lia. }
    destruct HE as (u' & c' & -> & Hu' & Hc' & Hw' & Hz). mret. rewrite set_ok by lia. mret. mret.
    pose proof (wrote_upd l idx u' Hu ltac:(lia) Hu') as W.
    set (l1 := upd (Z.to_nat idx) u' l) in *.
    assert (Hl1 : zlen l1 = 9) by (subst l1; rewrite zlen_upd; assumption).
    pose proof (round_tail m d l1 (idx + 1) I G idx fr c' (proj1 (proj2 W)) Hl1 HI HG HN ltac:(lia) ltac:(lia) Hc') as T.
    cbv zeta in T. replace (idx + 1 - idx) with 1 in T by lia. rewrite sg_1 in T.
    assert (Z1 : zn l1 idx = u') by (subst l1; apply zn_upd_eq; lia). rewrite Z1 in T.
    specialize (T Hz Hd).
    assert (Z2 : sg l1 (idx + 1) (I + G - (idx + 1)) = sg l (idx + 1) (I + G - (idx + 1))) by (subst l1; apply sg_upd_out; lia).
    rewrite Z2 in T.
    replace (I + G - idx) with (1 + (I + G - (idx + 1))) by lia. rewrite sg_cons by lia.
    rewrite unit_round_split by lia. fold w. rewrite <- Hw'.
    replace (base ^ idx * (u' + base * c' + base * sg l (idx + 1) (I + G - (idx + 1))))
      with (u' * base ^ idx + base ^ (idx + 1) * (sg l (idx + 1) (I + G - (idx + 1)) + c')) by (rewrite base_S by lia; ring).
    destruct T as [(d' & E & R)|T]; [left|right; exact T].
    exists d'. split; [exact E|]. eapply rounding_frame; [|exact R].
    intros k Hk. apply W; lia.
Qed.

(** The rounded decimal, in terms of the specification. *)
Definition round_result (a d : fd) (fr S : Z) : Prop :=
  wf d /\ neg d = neg a /\ fd_frac d = fr /\ magnitude d = S /\ int_digits d = 9 * iu d /\
  (iu d = iu a /\ S < base ^ (iu a + units_for fr) \/ iu d = iu a + 1 /\ S = base ^ (iu a + units_for fr)) /\
  (clean a -> clean d).

Lemma int_digits_9 I fr l : 0 <= I <= 10 -> int_digits (mkfd (9 * I) fr l) = 9 * I.
Proof. intros. unfold int_digits. cbn [fd_intg]. rewrite Z.mod_small; lia. Qed.
Lemma units_for_9 I : units_for (9 * I) = I.
Proof. unfold units_for. lia. Qed.
Lemma zlen_9 l : zlen l = 9 -> length l = 9%nat.
Proof. unfold zlen. lia. Qed.

Lemma signed_same s d : -128 <= fd_intg d < 128 -> same_digits d (signed s d).
Proof. intros. destruct s; [apply set_neg_same; assumption|]. repeat split. Qed.

Lemma rounding_result a l I G S fr d' : 0 <= I -> I = iu a -> 0 <= G -> 0 <= fr -> G = units_for fr -> I + G <= 9 ->
  (clean a -> forall k, I + G <= k -> zn l k = 0) ->
  rounding l (neg a) I G S fr d' -> round_result a d' fr S.
Proof.
  intros HI0 HI HG Hfr EG HN Hcl (l' & I' & -> & U & L & Hor & Es & Hf).
  assert (HI' : 0 <= I' <= 9 /\ I <= I' /\ I' + G <= 9) by (destruct Hor as [[-> _]|(-> & _ & ?)]; lia).
  set (d0 := mkfd (9 * I') fr l').
  assert (Di : int_digits d0 = 9 * I') by (apply int_digits_9; lia).
  assert (Diu : iu d0 = I') by (unfold iu; rewrite Di; apply units_for_9).
  assert (Dfu : fu d0 = G) by (unfold fu, frac_digits; cbn; congruence).
  assert (W0 : wf d0).
  { constructor; rewrite ?Diu, ?Dfu; cbn [d0 fd_lsu fd_intg fd_frac]; try lia; [apply zlen_9; assumption | exact U]. }
  assert (R0 : -128 <= fd_intg d0 < 128) by (unfold d0; cbn [fd_intg]; lia).
  pose proof (signed_same (neg a) d0 R0) as Sm.
  assert (Wd : wf (signed (neg a) d0)) by (destruct (neg a); [apply set_neg_wf|]; assumption).
  split; [exact Wd|].
  split. { destruct (neg a); cbn [signed]; [apply set_neg_neg; exact R0|]. unfold neg, d0. cbn [fd_intg]. lia. }
  split; [destruct Sm as (_ & -> & _); reflexivity|].
  split. { rewrite (same_magnitude _ _ Sm), magnitude_sg, Diu, Dfu. exact Es. }
  split. { destruct Sm as (E & _). unfold iu. rewrite E, Di. unfold units_for. lia. }
  split.
  { rewrite (same_iu _ _ Sm), Diu, <- EG, <- HI. destruct Hor as [[-> ?]|(-> & ? & ?)]; auto. }
  intros Ca. eapply same_clean; [exact Sm|]. apply clean_intro; rewrite Diu, Dfu; [|lia].
  intros k Hk. cbn [d0 fd_lsu] in *. rewrite Hf by lia. apply Hcl; [assumption|lia].
Qed.

(** Arithmetic of dropping low units. *)
Lemma drop_carry lo u hi n : 0 <= n -> 0 <= lo < base ^ n -> 0 <= u < base ->
  (lo + base ^ n * (u + base * hi) + 5 * 10 ^ (9 * n + 8)) / 10 ^ (9 * n + 9) = hi + (if u >=? HALF_UNIT then 1 else 0).
Proof.
  intros Hn Hlo Hu. change HALF_UNIT with 500000000.
  replace (10 ^ (9 * n + 9)) with (base ^ n * base) by (rewrite Z.pow_add_r, Z.pow_mul_r by lia; reflexivity).
  replace (5 * 10 ^ (9 * n + 8)) with (base ^ n * 500000000) by (rewrite Z.pow_add_r, Z.pow_mul_r by lia; change (10 ^ 8) with 100000000; change (10 ^ 9) with base; lia).
  pose proof (pow_base_pos n Hn).
  rewrite <- Z.div_div by (unfold base in *; lia).
  replace (lo + base ^ n * (u + base * hi) + base ^ n * 500000000) with (lo + (u + base * hi + 500000000) * base ^ n) by ring.
  rewrite Z.div_add by lia. rewrite (Z.div_small lo) by lia.
  replace (0 + (u + base * hi + 500000000)) with (u + 500000000 + hi * base) by ring.
  rewrite Z.div_add by (unfold base; lia).
  destruct (Z.geb_spec u 500000000); unfold base in *; lia.
Qed.

Lemma drop_round lo hi n t : 0 <= n -> 0 <= lo < base ^ n -> 1 <= t ->
  (lo + base ^ n * hi + 5 * 10 ^ (9 * n + t - 1)) / 10 ^ (9 * n + t) = (hi + 5 * 10 ^ (t - 1)) / 10 ^ t.
Proof.
  intros Hn Hlo Ht.
  replace (10 ^ (9 * n + t)) with (base ^ n * 10 ^ t) by (rewrite Z.pow_add_r, Z.pow_mul_r by lia; reflexivity).
  replace (10 ^ (9 * n + t - 1)) with (base ^ n * 10 ^ (t - 1)) by (replace (9 * n + t - 1) with (9 * n + (t - 1)) by lia; rewrite Z.pow_add_r, Z.pow_mul_r by lia; reflexivity).
  pose proof (pow_base_pos n Hn). assert (0 < 10 ^ t) by (apply Z.pow_pos_nonneg; lia).
  rewrite <- Z.div_div by lia.
  replace (lo + base ^ n * hi + 5 * (base ^ n * 10 ^ (t - 1))) with (lo + (hi + 5 * 10 ^ (t - 1)) * base ^ n) by ring.
  rewrite Z.div_add by lia. rewrite (Z.div_small lo) by lia. reflexivity.
Qed.

(** Copying the units from [F - G] on. *)
Lemma drop_units l F I G : uok l -> zlen l = 9 -> 0 <= G <= F -> 0 <= I -> F + I <= 9 ->
  exists s l2, slice l (F - G) (F + I) = Ret s /\ write_slice zero_units 0 (G + I) s = Ret l2 /\
    uok l2 /\ zlen l2 = 9 /\ (forall k, 0 <= k -> zn l2 k = if k <? G + I then zn l (F - G + k) else 0).
Proof.
  intros U L HG HI HF. rewrite slice_ok by lia. eexists. 
  assert (Ls : zlen (firstn (Z.to_nat (F + I - (F - G))) (skipn (Z.to_nat (F - G)) l)) = G + I) by (rewrite zlen_sub; lia).
  rewrite write_slice_ok; [|lia|rewrite zlen_zero_units; lia|rewrite Ls; lia].
  eexists. split; [reflexivity|]. split; [reflexivity|]. split; [apply uok_blit; [apply uok_repeat0|apply uok_sub, U]|].
  split; [rewrite zlen_blit; [reflexivity|lia|rewrite zlen_zero_units, Ls; lia]|].
  intros k Hk. rewrite zn_blit; [|lia|rewrite zlen_zero_units, Ls; lia|assumption]. rewrite Ls, zn_zero_units.
  destruct (Z.ltb_spec k (G + I)).
  - replace ((0 <=? k) && (k <? 0 + (G + I))) with true by lia. rewrite zn_sub by lia. f_equal. lia.
  - replace ((0 <=? k) && (k <? 0 + (G + I))) with false by lia. reflexivity.
Qed.

Lemma sg_shift l l2 F G I : 0 <= G + I -> (forall k, 0 <= k -> zn l2 k = if k <? G + I then zn l (F - G + k) else 0) ->
  sg l2 0 (I + G) = sg l (F - G) (I + G).
Proof.
  intros H0 H. apply sg_ext. intros k Hk. rewrite Z.add_0_l, H by lia. replace (k <? G + I) with true by lia. reflexivity.
Qed.

Lemma round_to_frac m a res fr : wf a -> 0 <= fr < frac_digits a ->
  let G := units_for fr in
  let S := 10 ^ (9 * G - fr) * half_up (magnitude a) (9 * fu a - fr) in
  (exists d, round_to m a res fr = Ret d /\ round_result a d fr S) \/
  (round_to m a res fr = Panic PIndex /\ iu a + G = 9 /\ base ^ 9 <= S).
Proof.
  intros Ha Hfr G S. pose proof (wf_counts a Ha) as C. pose proof (wf_zlen a Ha) as L. pose proof (wf_uok a Ha) as U.
  unfold round_to. cbv zeta. rewrite intg_units_ok, frac_units_ok by assumption. mret. mret.
  unfold frac. change (fd_frac a) with (frac_digits a).
  destruct (Z.geb_spec fr (frac_digits a)) as [?|_]; [lia|].
  destruct (Z.ltb_spec fr 0) as [?|_]; [lia|].
  rewrite as_i8_id by lia. rewrite i8_ok by lia. mret.
  rewrite get_units_ok by lia. mret. rewrite mod9_ok by lia. mret.
  assert (HF : fu a = units_for (frac_digits a)) by reflexivity.
  set (F := fu a) in *. set (I := iu a) in *. set (f := frac_digits a) in *. clearbody f.
  assert (ER : units_for (fr + 1) = fr / 9 + 1) by (unfold units_for; lia).
  rewrite ER. cbn [set_zero reset_units fd_lsu fd_intg fd_frac].
  assert (HRF : fr / 9 + 1 <= F) by (unfold units_for in *; lia).
  assert (HM : magnitude a = sg (fd_lsu a) 0 (I + F)) by apply magnitude_sg.
  destruct (Z.eqb_spec (fr mod 9) 0) as [Em|Em].
  - (* whole units are dropped, the unit below decides *)
    assert (HG : G = fr / 9) by (subst G; unfold units_for; lia).
    destruct (drop_units (fd_lsu a) F I G U L) as (s & l2 & Es & Ew & U2 & L2 & Z2); [lia..|].
    assert (ST : (if fr / 9 + 1 <? F then
         '(rfu, carry) <- (u <- get (fd_lsu a) (F - (fr / 9 + 1)) ;; Ret (fr / 9 + 1 - 1, if u >=? HALF_UNIT then 1 else 0)) ;;
         s <- slice (fd_lsu a) (F - rfu) (F + I) ;;
         l <- write_slice zero_units 0 (rfu + I) s ;;
         Ret (l, rfu, carry)
       else
         _ <- debug_assert m (fr / 9 + 1 =? F) ;;
           u <- get (fd_lsu a) 0 ;;
           s <- slice (fd_lsu a) 1 (F + I) ;;
           l <- write_slice zero_units 0 (F + I - 1) s ;;
           Ret (l, F - 1, if u >=? HALF_UNIT then 1 else 0)) =
       Ret (l2, G, if zn (fd_lsu a) (F - G - 1) >=? HALF_UNIT then 1 else 0)).
    { destruct (Z.ltb_spec (fr / 9 + 1) F).
      - rewrite get_ok by lia. mret. mret. replace (fr / 9 + 1 - 1) with G by lia. rewrite Es. mret. rewrite Ew. mret.
        replace (F - (fr / 9 + 1)) with (F - G - 1) by lia. reflexivity.
      - rewrite debug_assert_ok by lia. mret. rewrite get_ok by lia. mret.
        replace 1 with (F - G) at 1 by lia. rewrite Es. mret. replace (F + I - 1) with (G + I) by lia. rewrite Ew. mret.
        replace (F - 1) with G by lia. replace (F - G - 1) with 0 by lia. reflexivity. }
    rewrite ST. clear ST Es Ew. mret.
    replace (G * DIGITS_PER_UNIT - fr) with 0 by (cst; lia).
    set (carry := if zn (fd_lsu a) (F - G - 1) >=? HALF_UNIT then 1 else 0).
    assert (Hcarry : 0 <= carry <= 1) by (subst carry; destruct (_ >=? _); lia).
    pose proof (round_half_up_ok m (mkfd (fd_intg a) 0 l2) I G 0 fr carry U2 L2 ltac:(lia) ltac:(lia) ltac:(lia)
      ltac:(lia) ltac:(cbn; lia) ltac:(cbn; lia) Hcarry (wf_intg a Ha)) as T.
    cbn zeta in T. change (0 / 9) with 0 in T. change (0 mod 9) with 0 in T. cbn [fd_lsu] in T.
    change (rounded (sg l2 0 (I + G - 0)) 0 carry) with (sg l2 0 (I + G - 0) + carry) in T.
    rewrite Z.sub_0_r, Z.pow_0_r, Z.mul_1_l in T. rewrite (sg_shift (fd_lsu a) l2 F G I) in T by (auto; lia).
    assert (HS : S = sg (fd_lsu a) (F - G) (I + G) + carry).
    { subst S. unfold half_up. replace (9 * G - fr) with 0 by lia. rewrite Z.pow_0_r, Z.mul_1_l.
      replace (9 * F - fr) with (9 * (F - G - 1) + 9) by lia. replace (9 * (F - G - 1) + 9 - 1) with (9 * (F - G - 1) + 8) by lia.
      rewrite HM. replace (I + F) with ((F - G - 1) + (1 + (I + G))) by lia.
      rewrite sg_app by lia. rewrite Z.add_0_l, sg_cons by lia. replace (F - G - 1 + 1) with (F - G) by lia.
      rewrite drop_carry; [reflexivity | lia | apply sg_bound; [assumption|lia] | apply uok_zn, U]. }
    rewrite <- HS in T. destruct T as [(d & E & R)|(E & HN & HB)]; [left|right; auto].
    exists d. split; [exact E|]. change (neg (mkfd (fd_intg a) 0 l2)) with (neg a) in R.
    apply (rounding_result a l2 I G S fr d); auto; try lia. intros _ k Hk. rewrite Z2 by lia. replace (k <? G + I) with false by lia. reflexivity.
  - assert (HG : G = fr / 9 + 1) by (subst G; unfold units_for; lia).
    assert (ST : exists l2, uok l2 /\ zlen l2 = 9 /\ sg l2 0 (I + G) = sg (fd_lsu a) (F - G) (I + G) /\
       (clean a -> forall k, I + G <= k -> zn l2 k = 0) /\
       (if fr / 9 + 1 <? F then
         '(rfu, carry) <- Ret (fr / 9 + 1, 0) ;;
         s <- slice (fd_lsu a) (F - rfu) (F + I) ;;
         l <- write_slice zero_units 0 (rfu + I) s ;;
         Ret (l, rfu, carry)
       else
         _ <- debug_assert m (fr / 9 + 1 =? F) ;; Ret (fd_lsu a, F, 0)) = Ret (l2, G, 0)).
    { destruct (Z.ltb_spec (fr / 9 + 1) F).
      - destruct (drop_units (fd_lsu a) F I G U L) as (s & l2 & Es & Ew & U2 & L2 & Z2); [lia..|].
        exists l2. split; [exact U2|]. split; [exact L2|]. split; [apply sg_shift; auto; lia|].
        split. { intros _ k Hk. rewrite Z2 by lia. replace (k <? G + I) with false by lia. reflexivity. }
        mret. rewrite <- HG, Es. mret. rewrite Ew. mret. reflexivity.
      - exists (fd_lsu a). split; [exact U|]. split; [exact L|]. split; [f_equal; lia|].
        split. { intros Ca k Hk. apply (clean_elim a Ha Ca). fold F I. lia. }
        rewrite debug_assert_ok by lia. mret. do 2 f_equal. f_equal. lia. }
    destruct ST as (l2 & U2 & L2 & E2 & C2 & ->). mret.
    set (t := G * DIGITS_PER_UNIT - fr). assert (Ht : 1 <= t <= 8 /\ t = 9 * G - fr) by (subst t; cst; lia).
    clearbody t.
    pose proof (round_half_up_ok m (mkfd (fd_intg a) 0 l2) I G t fr 0 U2 L2 ltac:(lia) ltac:(lia) ltac:(lia)
      ltac:(lia) ltac:(lia) ltac:(lia) ltac:(lia) (wf_intg a Ha)) as T.
    cbn zeta in T. replace (t / 9) with 0 in T by lia. replace (t mod 9) with t in T by lia. cbn [fd_lsu] in T.
    unfold rounded in T. replace (t =? 0) with false in T by lia.
    rewrite Z.sub_0_r, Z.pow_0_r, Z.mul_1_l, E2 in T.
    assert (HS : S = 10 ^ t * ((sg (fd_lsu a) (F - G) (I + G) + 5 * 10 ^ (t - 1)) / 10 ^ t)).
    { subst S. unfold half_up. replace (9 * G - fr) with t by lia. f_equal.
      replace (9 * F - fr) with (9 * (F - G) + t) by lia. rewrite HM.
      replace (I + F) with ((F - G) + (I + G)) by lia. rewrite sg_app by lia. rewrite Z.add_0_l.
      rewrite drop_round; [reflexivity | lia | apply sg_bound; [assumption|lia] | lia]. }
    rewrite <- HS in T. destruct T as [(d & E & R)|(E & HN & HB)]; [left|right; auto].
    exists d. split; [exact E|]. change (neg (mkfd (fd_intg a) 0 l2)) with (neg a) in R.
    apply (rounding_result a l2 I G S fr d); auto; lia.
Qed.
