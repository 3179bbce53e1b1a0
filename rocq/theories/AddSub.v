(** * Proofs about addition and subtraction (src/arith.rs:12-67, 189-385). *)
From Coq Require Import ZArith List Bool Lia QArith.
From Coq Require Import ZifyBool ZifyNat.
Import ListNotations.
From Verif Require Import Rust Tables Model_Base Model_Cmp Model_Round Model_Arith Spec Lib Cmp.
Open Scope Z_scope.
Ltac Zify.zify_post_hook ::= Z.div_mod_to_equations.

Ltac mret := rewrite bind_Ret; cbv beta iota.
Ltac cst := unfold UNIT, HALF_UNIT, DIGITS_PER_UNIT, MAX_UNITS, MAX_FRAC_UNITS, MAX_FRAC, base in *.

Lemma add_with_carry_ok m a b c : 0 <= a < base -> 0 <= b < base -> 0 <= c <= 1 ->
  exists r c', add_with_carry m a b c = Ret (r, c') /\ 0 <= r < base /\ 0 <= c' <= 1 /\
               r + base * c' = a + b + c.
Proof.
  intros Ha Hb Hc. unfold add_with_carry. cst.
  rewrite i32_ok by lia. mret. rewrite i32_ok by lia. mret.
  destruct (a + b + c >=? 1000000000) eqn:E.
  - rewrite i32_ok by lia. mret. do 2 eexists. split; [reflexivity|]. lia.
  - do 2 eexists. split; [reflexivity|]. lia.
Qed.

Lemma sub_with_borrow_ok m a b c : 0 <= a < base -> 0 <= b < base -> -1 <= c <= 0 ->
  exists r c', sub_with_borrow m a b c = Ret (r, c') /\ 0 <= r < base /\ -1 <= c' <= 0 /\
               r + base * c' = a - b + c.
Proof.
  intros Ha Hb Hc. unfold sub_with_borrow. cst.
  rewrite i32_ok by lia. mret. rewrite i32_ok by lia. mret.
  destruct (a - b + c <? 0) eqn:E.
  - rewrite i32_ok by lia. mret. do 2 eexists. split; [reflexivity|]. lia.
  - do 2 eexists. split; [reflexivity|]. lia.
Qed.

(** What a loop that writes units [si..si+n) of [r] leaves behind. *)
Definition wrote (r r' : list Z) (si n : Z) : Prop :=
  length r' = length r /\ uok r' /\ (forall k, 0 <= k -> ~ (si <= k < si + n) -> zn r' k = zn r k).

Lemma wrote_refl r si n : uok r -> wrote r r si n.
Proof. intros H. repeat split; auto. Qed.
Lemma wrote_zlen r r' si n : wrote r r' si n -> zlen r' = zlen r.
Proof. intros (H & _). unfold zlen. lia. Qed.
Lemma wrote_trans r r' r'' a b i n : wrote r r' a b -> wrote r' r'' i n ->
  forall a' b', a' <= a -> a' <= i -> a + b <= a' + b' -> i + n <= a' + b' -> wrote r r'' a' b'.
Proof.
  intros (L1 & U1 & F1) (L2 & U2 & F2) a' b' H1 H2 H3 H4. split; [congruence|]. split; [assumption|].
  intros k Hk Hn. rewrite F2, F1 by lia. reflexivity.
Qed.
Lemma wrote_upd r i v : uok r -> 0 <= i < zlen r -> 0 <= v < base -> wrote r (upd (Z.to_nat i) v r) i 1.
Proof.
  intros Hu Hi Hv. split; [apply upd_length|]. split; [apply uok_upd; assumption|].
  intros k Hk Hn. apply zn_upd_ne; lia.
Qed.
Lemma wrote_blit r a s : uok r -> uok s -> 0 <= a -> a + zlen s <= zlen r -> wrote r (blit r a s) a (zlen s).
Proof.
  intros Hu Hs Ha Hl. split; [apply blit_length; assumption|]. split; [apply uok_blit; assumption|].
  intros k Hk Hn. rewrite zn_blit by assumption.
  replace ((a <=? k) && (k <? a + zlen s)) with false by lia. reflexivity.
Qed.
Lemma wrote_sg r r' si n i k : wrote r r' si n -> 0 <= i -> (i + k <= si \/ si + n <= i) -> sg r' i k = sg r i k.
Proof. intros (_ & _ & F) Hi H. apply sg_ext. intros j Hj. apply F; lia. Qed.

Lemma add_loop_ok m n a b li ri r si c :
  uok a -> uok b -> uok r -> 0 <= li -> 0 <= ri -> 0 <= si ->
  li + Z.of_nat n <= zlen a -> ri + Z.of_nat n <= zlen b -> si + Z.of_nat n <= zlen r -> 0 <= c <= 1 ->
  exists r' c', add_loop m n a b li ri r si c = Ret (r', c') /\ wrote r r' si (Z.of_nat n) /\
    0 <= c' <= 1 /\ seg r' si n + base ^ Z.of_nat n * c' = seg a li n + seg b ri n + c.
Proof.
  intros Ha Hb. revert li ri r si c; induction n as [|n IH]; intros li ri r si c Hr Hli Hri Hsi La Lb Lr Hc.
  - exists r, c. cbn [add_loop seg]. split; [reflexivity|]. split; [apply wrote_refl; assumption|].
    rewrite Z.pow_0_r. lia.
  - cbn [add_loop]. rewrite !get_ok by lia. mret. mret.
    destruct (add_with_carry_ok m (zn a li) (zn b ri) c) as (r0 & c0 & -> & Hr0 & Hc0 & E0);
      try (apply uok_zn; assumption); [assumption|]. mret.
    rewrite set_ok by lia. mret.
    pose proof (wrote_upd r si r0 Hr ltac:(lia) Hr0) as W0.
    destruct (IH (li + 1) (ri + 1) (upd (Z.to_nat si) r0 r) (si + 1) c0) as (r' & c' & E & W & Hc' & Es);
      try (rewrite ?zlen_upd; lia); [apply W0|].
    exists r', c'. split; [exact E|]. split; [|split; [assumption|]].
    + eapply wrote_trans; [exact W0 | exact W | lia | lia | lia | lia].
    + cbn [seg]. destruct W as (_ & _ & F). rewrite (F si) by lia. rewrite zn_upd_eq by lia.
      replace (Z.of_nat (S n)) with (Z.of_nat n + 1) by lia. rewrite base_S by lia. nia.
Qed.

Lemma add_rest_ok m n a li r si c :
  uok a -> uok r -> 0 <= li -> 0 <= si ->
  li + Z.of_nat n <= zlen a -> si + Z.of_nat n <= zlen r -> 0 <= c <= 1 ->
  exists r' c', add_rest m n a li r si c = Ret (r', c') /\ wrote r r' si (Z.of_nat n) /\
    0 <= c' <= 1 /\ seg r' si n + base ^ Z.of_nat n * c' = seg a li n + c.
Proof.
  intros Ha. revert li r si c; induction n as [|n IH]; intros li r si c Hr Hli Hsi La Lr Hc.
  - exists r, c. cbn [add_rest seg]. split; [reflexivity|]. split; [apply wrote_refl; assumption|].
    rewrite Z.pow_0_r. lia.
  - cbn [add_rest]. rewrite !get_ok by lia. mret.
    destruct (add_with_carry_ok m (zn a li) 0 c) as (r0 & c0 & -> & Hr0 & Hc0 & E0);
      try (apply uok_zn; assumption); [unfold base; lia|assumption|]. mret.
    rewrite set_ok by lia. mret.
    pose proof (wrote_upd r si r0 Hr ltac:(lia) Hr0) as W0.
    destruct (IH (li + 1) (upd (Z.to_nat si) r0 r) (si + 1) c0) as (r' & c' & E & W & Hc' & Es);
      try (rewrite ?zlen_upd; lia); [apply W0|].
    exists r', c'. split; [exact E|]. split; [|split; [assumption|]].
    + eapply wrote_trans; [exact W0 | exact W | lia | lia | lia | lia].
    + cbn [seg]. destruct W as (_ & _ & F). rewrite (F si) by lia. rewrite zn_upd_eq by lia.
      replace (Z.of_nat (S n)) with (Z.of_nat n + 1) by lia. rewrite base_S by lia. nia.
Qed.

Lemma sub_loop_ok m n a b li ri r si c :
  uok a -> uok b -> uok r -> 0 <= li -> 0 <= ri -> 0 <= si ->
  li + Z.of_nat n <= zlen a -> ri + Z.of_nat n <= zlen b -> si + Z.of_nat n <= zlen r -> -1 <= c <= 0 ->
  exists r' c', sub_loop m n a b li ri r si c = Ret (r', c') /\ wrote r r' si (Z.of_nat n) /\
    -1 <= c' <= 0 /\ seg r' si n + base ^ Z.of_nat n * c' = seg a li n - seg b ri n + c.
Proof.
  intros Ha Hb. revert li ri r si c; induction n as [|n IH]; intros li ri r si c Hr Hli Hri Hsi La Lb Lr Hc.
  - exists r, c. cbn [sub_loop seg]. split; [reflexivity|]. split; [apply wrote_refl; assumption|].
    rewrite Z.pow_0_r. lia.
  - cbn [sub_loop]. rewrite !get_ok by lia. mret. mret.
    destruct (sub_with_borrow_ok m (zn a li) (zn b ri) c) as (r0 & c0 & -> & Hr0 & Hc0 & E0);
      try (apply uok_zn; assumption); [assumption|]. mret.
    rewrite set_ok by lia. mret.
    pose proof (wrote_upd r si r0 Hr ltac:(lia) Hr0) as W0.
    destruct (IH (li + 1) (ri + 1) (upd (Z.to_nat si) r0 r) (si + 1) c0) as (r' & c' & E & W & Hc' & Es);
      try (rewrite ?zlen_upd; lia); [apply W0|].
    exists r', c'. split; [exact E|]. split; [|split; [assumption|]].
    + eapply wrote_trans; [exact W0 | exact W | lia | lia | lia | lia].
    + cbn [seg]. destruct W as (_ & _ & F). rewrite (F si) by lia. rewrite zn_upd_eq by lia.
      replace (Z.of_nat (S n)) with (Z.of_nat n + 1) by lia. rewrite base_S by lia. nia.
Qed.

Lemma sub_rest_ok m n a li r si c :
  uok a -> uok r -> 0 <= li -> 0 <= si ->
  li + Z.of_nat n <= zlen a -> si + Z.of_nat n <= zlen r -> -1 <= c <= 0 ->
  exists r' c', sub_rest m n a li r si c = Ret (r', c') /\ wrote r r' si (Z.of_nat n) /\
    -1 <= c' <= 0 /\ seg r' si n + base ^ Z.of_nat n * c' = seg a li n + c.
Proof.
  intros Ha. revert li r si c; induction n as [|n IH]; intros li r si c Hr Hli Hsi La Lr Hc.
  - exists r, c. cbn [sub_rest seg]. split; [reflexivity|]. split; [apply wrote_refl; assumption|].
    rewrite Z.pow_0_r. lia.
  - cbn [sub_rest]. rewrite !get_ok by lia. mret.
    destruct (sub_with_borrow_ok m (zn a li) 0 c) as (r0 & c0 & -> & Hr0 & Hc0 & E0);
      try (apply uok_zn; assumption); [unfold base; lia|assumption|]. mret.
    rewrite set_ok by lia. mret.
    pose proof (wrote_upd r si r0 Hr ltac:(lia) Hr0) as W0.
    destruct (IH (li + 1) (upd (Z.to_nat si) r0 r) (si + 1) c0) as (r' & c' & E & W & Hc' & Es);
      try (rewrite ?zlen_upd; lia); [apply W0|].
    exists r', c'. split; [exact E|]. split; [|split; [assumption|]].
    + eapply wrote_trans; [exact W0 | exact W | lia | lia | lia | lia].
    + cbn [seg]. destruct W as (_ & _ & F). rewrite (F si) by lia. rewrite zn_upd_eq by lia.
      replace (Z.of_nat (S n)) with (Z.of_nat n + 1) by lia. rewrite base_S by lia. nia.
Qed.

Lemma sub_low_ok m n b ri r si c :
  uok b -> uok r -> 0 <= ri -> 0 <= si ->
  ri + Z.of_nat n <= zlen b -> si + Z.of_nat n <= zlen r -> -1 <= c <= 0 ->
  exists r' c', sub_low m n b ri r si c = Ret (r', c') /\ wrote r r' si (Z.of_nat n) /\
    -1 <= c' <= 0 /\ seg r' si n + base ^ Z.of_nat n * c' = - seg b ri n + c.
Proof.
  intros Ha. revert ri r si c; induction n as [|n IH]; intros ri r si c Hr Hli Hsi La Lr Hc.
  - exists r, c. cbn [sub_low seg]. split; [reflexivity|]. split; [apply wrote_refl; assumption|].
    rewrite Z.pow_0_r. lia.
  - cbn [sub_low]. rewrite !get_ok by lia. mret.
    destruct (sub_with_borrow_ok m 0 (zn b ri) c) as (r0 & c0 & -> & Hr0 & Hc0 & E0);
      try (apply uok_zn; assumption); [unfold base; lia|assumption|]. mret.
    rewrite set_ok by lia. mret.
    pose proof (wrote_upd r si r0 Hr ltac:(lia) Hr0) as W0.
    destruct (IH (ri + 1) (upd (Z.to_nat si) r0 r) (si + 1) c0) as (r' & c' & E & W & Hc' & Es);
      try (rewrite ?zlen_upd; lia); [apply W0|].
    exists r', c'. split; [exact E|]. split; [|split; [assumption|]].
    + eapply wrote_trans; [exact W0 | exact W | lia | lia | lia | lia].
    + cbn [seg]. destruct W as (_ & _ & F). rewrite (F si) by lia. rewrite zn_upd_eq by lia.
      replace (Z.of_nat (S n)) with (Z.of_nat n + 1) by lia. rewrite base_S by lia. nia.
Qed.

Lemma negate_units_ok m n l i c :
  uok l -> 0 <= i -> i + Z.of_nat n <= zlen l -> -1 <= c <= 0 ->
  exists l' c', negate_units m n l i c = Ret (l', c') /\ wrote l l' i (Z.of_nat n) /\
    -1 <= c' <= 0 /\ seg l' i n + base ^ Z.of_nat n * c' = - seg l i n + c.
Proof.
  revert l i c; induction n as [|n IH]; intros l i c Hl Hi Ll Hc.
  - exists l, c. cbn [negate_units seg]. split; [reflexivity|]. split; [apply wrote_refl; assumption|].
    rewrite Z.pow_0_r. lia.
  - cbn [negate_units]. rewrite !get_ok by lia. mret.
    destruct (sub_with_borrow_ok m 0 (zn l i) c) as (r0 & c0 & -> & Hr0 & Hc0 & E0);
      try (apply uok_zn; assumption); [unfold base; lia|assumption|]. mret.
    rewrite set_ok by lia. mret.
    pose proof (wrote_upd l i r0 Hl ltac:(lia) Hr0) as W0.
    destruct (IH (upd (Z.to_nat i) r0 l) (i + 1) c0) as (r' & c' & E & W & Hc' & Es);
      try (rewrite ?zlen_upd; lia); [apply W0|].
    exists r', c'. split; [exact E|]. split; [|split; [assumption|]].
    + eapply wrote_trans; [exact W0 | exact W | lia | lia | lia | lia].
    + cbn [seg]. destruct W as (_ & _ & F). rewrite (F i) by lia. rewrite zn_upd_eq by lia.
      rewrite (sg_of_seg (upd _ _ _)), sg_upd_out, <- sg_of_seg in Es by lia.
      replace (Z.of_nat (S n)) with (Z.of_nat n + 1) by lia. rewrite base_S by lia. nia.
Qed.

Lemma top_non_zero_ok n l fu : uok l -> 0 <= fu -> Z.of_nat n + fu <= zlen l ->
  exists k, top_non_zero n l fu = Ret k /\ -1 <= k < Z.of_nat n /\
    (forall j, k < j < Z.of_nat n -> zn l (j + fu) = 0) /\ (0 <= k -> 0 < zn l (k + fu)).
Proof.
  intros Hu Hf. induction n as [|n IH]; intros Hl; cbn [top_non_zero].
  - exists (-1). split; [reflexivity|]. split; [lia|]. split; intros; lia.
  - rewrite get_ok by lia. mret. pose proof (uok_zn l (Z.of_nat n + fu) Hu).
    destruct (zn l (Z.of_nat n + fu) >? 0) eqn:E.
    + exists (Z.of_nat n). split; [reflexivity|]. split; [lia|]. split; [|lia]. intros j Hj. lia.
    + destruct IH as (k & Ek & Hk & Hz & Hp); [lia|]. exists k. split; [exact Ek|]. split; [lia|].
      split; [|exact Hp]. intros j Hj. destruct (Z.eq_dec j (Z.of_nat n)) as [->|]; [lia | apply Hz; lia].
Qed.

(** The units of an aligned operand: [A * base^(F - fu)]. *)
Lemma align l iu fu f c F : 0 <= f <= fu -> 0 <= c <= iu -> fu <= F -> (fu = f \/ fu = F) ->
  sg l 0 (iu + fu) * base ^ (F - fu) =
  sg l 0 (fu - f) + base ^ (F - f) * (sg l (fu - f) (f + c) + base ^ (f + c) * sg l (fu + c) (iu - c)).
Proof.
  intros Hf Hc HF Hd. replace (iu + fu) with ((fu - f) + ((f + c) + (iu - c))) by lia.
  rewrite !sg_app by lia. replace (0 + (fu - f)) with (fu - f) by lia.
  replace (fu - f + (f + c)) with (fu + c) by lia.
  replace (F - f) with ((fu - f) + (F - fu)) by lia. rewrite (base_pow_split (fu - f) (F - fu)) by lia.
  destruct Hd as [->| ->].
  - rewrite Z.sub_diag. rewrite (sg_nil l 0 0) by lia. rewrite Z.pow_0_r. ring.
  - rewrite Z.sub_diag. rewrite Z.pow_0_r. ring.
Qed.

(** The number of integral units a decimal declares as [9 * k] digits. *)
Lemma units_for_mul k : units_for (k * 9) = k.
Proof. unfold units_for. lia. Qed.
Lemma units_for_max a b : units_for (Z.max a b) = Z.max (units_for a) (units_for b).
Proof. unfold units_for. lia. Qed.

(** Facts about a result built by [add_abs]/[sub_abs] from an array whose
    units beyond [N + F] are zero. *)
Definition abs_result (d : fd) (fr total : Z) : Prop :=
  wf d /\ clean d /\ tight d /\ neg d = false /\ fd_frac d = fr /\
  magnitude d = total /\ int_digits d = 9 * iu d /\
  (iu d = 0 \/ base ^ (iu d + fu d - 1) <= magnitude d).

Lemma clean_intro d : (forall k, iu d + fu d <= k < zlen (fd_lsu d) -> zn (fd_lsu d) k = 0) ->
  0 <= iu d + fu d -> clean d.
Proof.
  intros H Hn. unfold clean. apply Forall_nth. intros i x Hi. rewrite skipn_length in Hi.
  rewrite (nth_indep _ _ 0) by (rewrite skipn_length; lia).
  pose proof (zn_skipn (fd_lsu d) (Z.to_nat (iu d + fu d)) (Z.of_nat i)) as E.
  unfold zn in E at 1. rewrite Nat2Z.id in E. rewrite E by lia. apply H. unfold zlen. lia.
Qed.
Lemma clean_elim d : wf d -> clean d -> forall k, iu d + fu d <= k -> zn (fd_lsu d) k = 0.
Proof.
  intros Hw H k Hk. pose proof (wf_counts d Hw).
  destruct (Z_lt_dec k 9) as [H9|H9].
  - unfold clean in H. rewrite Forall_nth in H.
    specialize (H (Z.to_nat (k - (iu d + fu d))) 0). rewrite skipn_length, (wf_len d Hw) in H.
    specialize (H ltac:(lia)).
    pose proof (zn_skipn (fd_lsu d) (Z.to_nat (iu d + fu d)) (k - (iu d + fu d))) as E.
    unfold zn in E at 1. rewrite E in H by lia. rewrite <- H. f_equal. lia.
  - apply zn_out. rewrite wf_zlen by assumption. lia.
Qed.

Lemma top_result A (v : A) r fr F n k : length r = 9%nat -> uok r -> 0 <= fr <= 81 -> F = units_for fr ->
  Z.of_nat n + F <= 9 -> (forall i, Z.of_nat n + F <= i -> zn r i = 0) ->
  -1 <= k < Z.of_nat n -> (forall j, k < j < Z.of_nat n -> zn r (j + F) = 0) -> (0 <= k -> 0 < zn r (k + F)) ->
  exists d, (if k >=? 0 then Ret (Ok v, mkfd (as_i8 ((k + 1) * DIGITS_PER_UNIT)) fr r)
             else Ret (Ok v, mkfd 0 fr r)) = Ret (Ok v, d) /\
    d = mkfd (9 * (k + 1)) fr r /\
    abs_result d fr (sg r 0 (Z.of_nat n + F)).
Proof.
  intros Hl Hu Hfr HF Hn Hz Hk Hj Hp.
  assert (HF0 : 0 <= F) by (subst F; unfold units_for; lia).
  exists (mkfd (9 * (k + 1)) fr r).
  split.
  { unfold DIGITS_PER_UNIT. destruct (k >=? 0) eqn:E.
    - rewrite as_i8_id by lia. replace ((k + 1) * 9) with (9 * (k + 1)) by lia. reflexivity.
    - replace (9 * (k + 1)) with 0 by lia. reflexivity. }
  split; [reflexivity|].
  set (d := mkfd (9 * (k + 1)) fr r).
  assert (Hid : int_digits d = 9 * (k + 1)) by (unfold int_digits; cbn [d fd_intg]; lia).
  assert (Hiu : iu d = k + 1) by (unfold iu; rewrite Hid; unfold units_for; lia).
  assert (Hfu : fu d = F) by (subst F; reflexivity).
  assert (W : wf d).
  { constructor; cbn [d fd_lsu fd_intg fd_frac]; try assumption; try lia. }
  assert (M : magnitude d = sg r 0 (Z.of_nat n + F)).
  { rewrite magnitude_sg. cbn [d fd_lsu]. fold d. rewrite Hiu, Hfu.
    replace (Z.of_nat n + F) with ((k + 1 + F) + (Z.of_nat n - (k + 1))) by lia.
    rewrite (sg_app _ _ (k + 1 + F)) by lia.
    rewrite (sg_0 r _ (Z.of_nat n - (k + 1))).
    - ring.
    - intros i Hi. replace i with ((i - F) + F) by lia. apply Hj. lia. }
  unfold abs_result. split; [exact W|]. split.
  { apply clean_intro; [|lia]. intros i Hi. cbn [d fd_lsu] in *. fold d in Hi. rewrite Hiu, Hfu in Hi.
    destruct (Z_lt_dec i (Z.of_nat n + F)).
    - replace i with ((i - F) + F) by lia. apply Hj. lia.
    - apply Hz. lia. }
  split.
  { unfold tight. rewrite Hid. pose proof (magnitude_bound d W) as Hb. rewrite Hiu in Hb.
    replace (10 ^ (9 * (k + 1))) with (base ^ (k + 1)) by (rewrite Z.pow_mul_r by lia; reflexivity).
    rewrite <- base_pow_split by lia. apply Hb. }
  split; [unfold neg; cbn [d fd_intg]; lia|].
  split; [reflexivity|]. split; [exact M|]. split; [lia|].
  destruct (Z_le_dec 0 k) as [Hk0|Hk0]; [right|left; lia].
  rewrite magnitude_sg, Hiu, Hfu. cbn [d fd_lsu].
  replace (k + 1 + F) with ((k + F) + 1) by lia. rewrite sg_snoc by lia.
  pose proof (sg_nonneg r 0 (k + F) Hu). pose proof (pow_base_pos (k + F)).
  replace (k + F + 1 - 1) with (k + F) by lia. specialize (Hp Hk0).
  replace (0 + (k + F)) with (k + F) by lia. nia.
Qed.

(** Stage 1 of [add_abs] (src/arith.rs:206-221). *)
Lemma add_stage1 (a b r : list Z) lfu rfu : uok a -> uok b -> uok r ->
  0 <= lfu <= zlen a -> 0 <= rfu <= zlen b -> Z.max lfu rfu <= zlen r ->
  exists r1,
  match lfu - rfu ?= 0 with
  | Gt =>
      s <- slice a 0 (lfu - rfu) ;; r <- write_slice r 0 (lfu - rfu) s ;;
      Ret (lfu - rfu, 0, lfu - rfu, r)
  | Lt =>
      s <- slice b 0 (- (lfu - rfu)) ;; r <- write_slice r 0 (- (lfu - rfu)) s ;;
      Ret (0, - (lfu - rfu), - (lfu - rfu), r)
  | Eq => Ret (0, 0, 0, r)
  end = Ret (lfu - Z.min lfu rfu, rfu - Z.min lfu rfu, Z.max lfu rfu - Z.min lfu rfu, r1) /\
  wrote r r1 0 (Z.max lfu rfu - Z.min lfu rfu) /\
  sg r1 0 (Z.max lfu rfu - Z.min lfu rfu) =
    sg a 0 (lfu - Z.min lfu rfu) + sg b 0 (rfu - Z.min lfu rfu).
Proof.
  intros Ha Hb Hr Hlf Hrf Hl. destruct (Z.compare_spec (lfu - rfu) 0) as [E|E|E].
  - exists r. replace rfu with lfu by lia. rewrite Z.max_id, Z.min_id, Z.sub_diag.
    split; [reflexivity|]. split; [apply wrote_refl; assumption|]. rewrite !sg_nil by lia. reflexivity.
  - rewrite slice_ok by lia. mret.
    replace (Z.min lfu rfu) with lfu by lia. replace (Z.max lfu rfu) with rfu by lia.
    rewrite write_slice_ok by (rewrite ?zlen_sub by lia; lia). mret.
    replace (- (lfu - rfu)) with (rfu - lfu) by lia. rewrite Z.sub_diag.
    set (s := firstn _ _). assert (Hs : zlen s = rfu - lfu) by (subst s; rewrite zlen_sub; lia).
    exists (blit r 0 s). split; [reflexivity|]. split.
    + rewrite <- Hs. apply wrote_blit; auto; [apply uok_sub; assumption|lia|lia].
    + rewrite (sg_nil a) by lia. apply sg_ext. intros k Hk.
      rewrite zn_blit by lia. replace ((0 <=? 0 + k) && (0 + k <? 0 + zlen s)) with true by lia.
      replace (0 + k - 0) with k by lia. subst s. rewrite zn_sub by lia. f_equal; lia.
  - rewrite slice_ok by lia. mret.
    replace (Z.min lfu rfu) with rfu by lia. replace (Z.max lfu rfu) with lfu by lia.
    rewrite write_slice_ok by (rewrite ?zlen_sub by lia; lia). mret. rewrite Z.sub_diag.
    set (s := firstn _ _). assert (Hs : zlen s = lfu - rfu) by (subst s; rewrite zlen_sub; lia).
    exists (blit r 0 s). split; [reflexivity|]. split.
    + rewrite <- Hs. apply wrote_blit; auto; [apply uok_sub; assumption|lia|lia].
    + rewrite (sg_nil b) by lia. rewrite Z.add_0_r. apply sg_ext. intros k Hk.
      rewrite zn_blit by lia. replace ((0 <=? 0 + k) && (0 + k <? 0 + zlen s)) with true by lia.
      replace (0 + k - 0) with k by lia. subst s. rewrite zn_sub by lia. f_equal; lia.
Qed.

(** Stage 3 of [add_abs] (src/arith.rs:234-262). *)
Lemma add_stage3 m (a b r : list Z) liu riu li ri si c : uok a -> uok b -> uok r ->
  0 <= liu -> 0 <= riu -> 0 <= li -> 0 <= ri -> 0 <= si ->
  li + (liu - Z.min liu riu) <= zlen a -> ri + (riu - Z.min liu riu) <= zlen b ->
  si + (Z.max liu riu - Z.min liu riu) <= zlen r -> 0 <= c <= 1 ->
  exists r1 c1, 0 <= c1 <= 1 /\
  wrote r r1 si (Z.max liu riu - Z.min liu riu) /\
  sg r1 si (Z.max liu riu - Z.min liu riu) + base ^ (Z.max liu riu - Z.min liu riu) * c1 =
    sg a li (liu - Z.min liu riu) + sg b ri (riu - Z.min liu riu) + c /\
  (if liu - riu >? 0 then
       '(r, carry) <- add_rest m (Z.to_nat (liu - riu)) a li r si c ;;
       if carry >? 0 then r <- set r (si + (liu - riu)) carry ;; Ret (r, carry)
       else Ret (r, carry)
     else if liu - riu <? 0 then
       '(r, carry) <- add_rest m (Z.to_nat (- (liu - riu))) b ri r si c ;;
       if carry >? 0 then r <- set r (si - (liu - riu)) carry ;; Ret (r, carry)
       else Ret (r, carry)
     else if negb (c =? 0) then
       r <- set r si c ;; Ret (r, c)
     else Ret (r, c)) =
  (if c1 =? 0 then Ret (r1, 0)
   else (r <- set r1 (si + (Z.max liu riu - Z.min liu riu)) 1 ;; Ret (r, 1))).
Proof.
  intros Ha Hb Hr Hli Hri Hl Hr0 Hs La Lb Lr Hc.
  destruct (Z_lt_dec 0 (liu - riu)) as [E|E]; [|destruct (Z_lt_dec (liu - riu) 0) as [E'|E']].
  - replace (liu - riu >? 0) with true by lia.
    replace (Z.min liu riu) with riu in * by lia. replace (Z.max liu riu) with liu in * by lia.
    destruct (add_rest_ok m (Z.to_nat (liu - riu)) a li r si c) as (r1 & c1 & -> & W & Hc1 & Es);
      try assumption; try lia.
    rewrite !Z2Nat.id in * by lia. exists r1, c1. split; [assumption|]. split; [assumption|].
    split. { rewrite (sg_nil b) by lia. unfold sg. rewrite Z.add_0_r. exact Es. }
    mret. destruct (c1 >? 0) eqn:E1.
    + replace c1 with 1 by lia. reflexivity.
    + replace c1 with 0 by lia. reflexivity.
  - replace (liu - riu >? 0) with false by lia. replace (liu - riu <? 0) with true by lia.
    replace (Z.min liu riu) with liu in * by lia. replace (Z.max liu riu) with riu in * by lia.
    replace (- (liu - riu)) with (riu - liu) by lia. replace (si - (liu - riu)) with (si + (riu - liu)) by lia.
    destruct (add_rest_ok m (Z.to_nat (riu - liu)) b ri r si c) as (r1 & c1 & -> & W & Hc1 & Es);
      try assumption; try lia.
    rewrite !Z2Nat.id in * by lia. exists r1, c1. split; [assumption|]. split; [assumption|].
    split. { rewrite (sg_nil a) by lia. unfold sg. rewrite Z.add_0_l. exact Es. }
    mret. destruct (c1 >? 0) eqn:E1.
    + replace c1 with 1 by lia. reflexivity.
    + replace c1 with 0 by lia. reflexivity.
  - replace (liu - riu >? 0) with false by lia. replace (liu - riu <? 0) with false by lia.
    replace riu with liu in * by lia. rewrite Z.min_id, Z.max_id, Z.sub_diag in *.
    exists r, c. split; [assumption|]. split; [apply wrote_refl; assumption|].
    split. { rewrite !sg_nil by lia. rewrite Z.pow_0_r. lia. }
    rewrite Z.add_0_r. destruct (c =? 0) eqn:E1; cbn [negb].
    + do 3 f_equal. lia.
    + replace c with 1 by lia. reflexivity.
Qed.

(** The aligned magnitudes. *)
Definition amg (a b d : fd) : Z := magnitude d * base ^ (Z.max (fu a) (fu b) - fu d).

Lemma amg_align a b d : wf d -> d = a \/ d = b -> 
  let f := Z.min (fu a) (fu b) in let c := Z.min (iu a) (iu b) in
  0 <= f -> 0 <= c ->
  amg a b d = sg (fd_lsu d) 0 (fu d - f) + base ^ (Z.max (fu a) (fu b) - f) *
    (sg (fd_lsu d) (fu d - f) (f + c) + base ^ (f + c) * sg (fd_lsu d) (fu d + c) (iu d - c)).
Proof.
  intros Hd Hor f c Hf Hc. unfold amg. rewrite magnitude_sg. apply align; subst f c; destruct Hor as [->| ->]; lia.
Qed.

Lemma amg_bound a b d : wf a -> wf b -> d = a \/ d = b ->
  0 <= amg a b d < base ^ (Z.max (iu a) (iu b) + Z.max (fu a) (fu b)).
Proof.
  intros Ha Hb Hor. assert (Hd : wf d) by (destruct Hor as [->| ->]; assumption).
  pose proof (magnitude_bound d Hd) as Hm. pose proof (wf_counts a Ha). pose proof (wf_counts b Hb).
  assert (Hc : 0 <= Z.max (fu a) (fu b) - fu d /\ iu d <= Z.max (iu a) (iu b)) by (destruct Hor as [->| ->]; lia).
  unfold amg. set (F := Z.max (fu a) (fu b)) in *. set (I := Z.max (iu a) (iu b)) in *.
  pose proof (pow_base_pos (F - fu d)).
  assert (base ^ (iu d + fu d) * base ^ (F - fu d) <= base ^ (I + F)).
  { pose proof (wf_counts d Hd). rewrite <- base_pow_split by lia. apply Z.pow_le_mono_r; [reflexivity | lia]. }
  set (x := base ^ (F - fu d)) in *. set (y := base ^ (iu d + fu d)) in *. set (z := base ^ (I + F)) in *.
  assert (0 < x) by (apply H1; lia). clearbody x y z. clear - Hm H2 H3. nia.
Qed.

Lemma zn_zero_units i : zn zero_units i = 0.
Proof. apply zn_repeat0. Qed.
Lemma zlen_zero_units : zlen zero_units = 9.
Proof. reflexivity. Qed.

(** The end of [add_abs] (src/arith.rs:260-280). *)
Lemma add_finish m r3 c3 I F fr ig : length r3 = 9%nat -> uok r3 -> 0 <= fr <= 81 -> F = units_for fr ->
  0 <= I -> 0 <= F -> I + F <= 8 -> (forall i, I + F <= i -> zn r3 i = 0) -> 0 <= c3 <= 1 ->
  let T := sg r3 0 (I + F) + base ^ (I + F) * c3 in
  let prog :=
    '(r, carry) <- (if c3 =? 0 then Ret (r3, 0) else (r <- set r3 (I + F) 1 ;; Ret (r, 1))) ;;
    let res := mkfd ig fr r in
    fu <- frac_units m res ;;
    k <- top_non_zero (Z.to_nat (I + carry + 1)) r fu ;;
    if k >=? 0 then
      Ret (Ok tt, mkfd (as_i8 ((k + 1) * DIGITS_PER_UNIT)) (fd_frac res) r)
    else Ret (Ok tt, mkfd 0 (fd_frac res) r) in
  (exists d, prog = Ret (Ok tt, d) /\ abs_result d fr T /\ (I + F <= 7 \/ T < base ^ (I + F)))
  \/ (prog = Panic PIndex /\ I + F = 8 /\ base ^ (I + F) <= T).
Proof.
  intros L3 U3 Hfr HF HI HF0 H8 FR Hc T prog. subst prog.
  assert (Z3 : zlen r3 = 9) by (unfold zlen; lia).
  pose proof (sg_bound r3 0 (I + F) U3 ltac:(try clear EQ; try clear S1; try clear S2; try clear S3; lia)) as B3. 
  destruct (Z.eq_dec c3 0) as [->|Hn0].
  - (* no carry *)
    cbn [Z.eqb]. mret. left.
    unfold frac_units, frac. cbn [fd_frac]. rewrite get_units_ok by lia. mret. rewrite <- HF.
    replace (I + 0 + 1) with (I + 1) by lia.
    destruct (top_non_zero_ok (Z.to_nat (I + 1)) r3 F) as (k & -> & Hk & Hz & Hp); try assumption; try lia.
    mret.
    destruct (top_result unit tt r3 fr F (Z.to_nat (I + 1)) k) as (d & -> & _ & Hd);
      try assumption; try lia; try (intros i Hi; apply FR; lia).
    exists d. split; [reflexivity|]. rewrite Z2Nat.id in Hd by lia.
    replace (I + 1 + F) with (I + F + 1) in Hd by lia. rewrite sg_snoc, (FR (0 + (I + F))) in Hd by lia.
    split; [exact Hd | right; lia].
  - assert (c3 = 1) by lia. subst c3. change (1 =? 0) with false. cbv iota.
    rewrite set_ok by lia. mret. mret.
    unfold frac_units, frac. cbn [fd_frac]. rewrite get_units_ok by lia. mret. rewrite <- HF.
    replace (I + 1 + 1) with (I + 2) by lia.
    destruct (Z.eq_dec (I + F) 8) as [E8|E8].
    + right. split; [|split; [assumption|]].
      * replace (Z.to_nat (I + 2)) with (S (Z.to_nat (I + 1))) by lia. cbn [top_non_zero].
        rewrite get_out by (rewrite zlen_upd; lia). reflexivity.
      * subst T. lia.
    + left. set (r4 := upd (Z.to_nat (I + F)) 1 r3).
      assert (U4 : uok r4) by (apply uok_upd; [assumption | unfold base; lia]).
      assert (Z4 : zlen r4 = 9) by (unfold r4; rewrite zlen_upd; assumption).
      destruct (top_non_zero_ok (Z.to_nat (I + 2)) r4 F) as (k & -> & Hk & Hz & Hp); try assumption; try lia.
      mret.
      assert (FR4 : forall i, I + F + 1 <= i -> zn r4 i = 0).
      { intros i Hi. unfold r4. rewrite zn_upd_ne by lia. apply FR. lia. }
      destruct (top_result unit tt r4 fr F (Z.to_nat (I + 2)) k) as (d & -> & _ & Hd);
        try assumption; try lia; try (unfold zlen in Z4; lia); try (intros i Hi; apply FR4; lia).
      exists d. split; [reflexivity|]. rewrite Z2Nat.id in Hd by lia.
      replace (I + 2 + F) with (I + F + 1 + 1) in Hd by lia.
      rewrite !sg_snoc in Hd by lia. rewrite (FR4 (0 + (I + F + 1))) in Hd by lia.
      replace (0 + (I + F)) with (I + F) in Hd by lia.
      replace (zn r4 (I + F)) with 1 in Hd by (unfold r4; rewrite zn_upd_eq by lia; reflexivity).
      replace (sg r4 0 (I + F)) with (sg r3 0 (I + F)) in Hd by (unfold r4; rewrite sg_upd_out by lia; reflexivity).
      split; [|left; lia].
      replace T with (sg r3 0 (I + F) + base ^ (I + F) * 1 + base ^ (I + F + 1) * 0) by (subst T; ring). exact Hd.
Qed.

Lemma add_abs_run m a b r0 : wf a -> wf b ->
  Z.max (iu a) (iu b) + Z.max (fu a) (fu b) <= 8 ->
  let N := Z.max (iu a) (iu b) + Z.max (fu a) (fu b) in
  (exists d, add_abs m a b r0 = Ret (Ok tt, d) /\
     abs_result d (Z.max (fd_frac a) (fd_frac b)) (amg a b a + amg a b b) /\
     (N <= 7 \/ amg a b a + amg a b b < base ^ N))
  \/ (add_abs m a b r0 = Panic PIndex /\ N = 8 /\ base ^ N <= amg a b a + amg a b b).
Proof.
  intros Ha Hb H8 N.
  pose proof (wf_counts a Ha) as Ca. pose proof (wf_counts b Hb) as Cb.
  pose proof (wf_zlen a Ha) as La. pose proof (wf_zlen b Hb) as Lb.
  pose proof (wf_uok a Ha) as Ua. pose proof (wf_uok b Hb) as Ub.
  unfold add_abs. rewrite !intg_units_ok, !frac_units_ok by assumption.
  mret. mret. mret. mret. cbn [set_zero reset_units fd_lsu fd_intg fd_frac].
  destruct (add_stage1 (fd_lsu a) (fd_lsu b) zero_units (fu a) (fu b)) as (r1 & E1 & W1 & S1);
    try assumption; try (apply uok_repeat0); try (rewrite ?zlen_zero_units; lia).
  cbn zeta in E1 |- *. rewrite E1; clear E1. mret.
  set (f := Z.min (fu a) (fu b)) in *. set (F := Z.max (fu a) (fu b)) in *.
  set (c := Z.min (iu a) (iu b)). set (I := Z.max (iu a) (iu b)) in *.
  assert (Z1 : zlen r1 = 9) by (rewrite (wrote_zlen _ _ _ _ W1); reflexivity).
  assert (Hf0 : 0 <= f) by (subst f; lia). assert (Hc0 : 0 <= c) by (subst c; lia).
  destruct (add_loop_ok m (Z.to_nat (c + f)) (fd_lsu a) (fd_lsu b) (fu a - f) (fu b - f) r1 (F - f) 0)
    as (r2 & c2 & E2 & W2 & Hc2 & S2); try (apply W1); try assumption; try (rewrite ?Z2Nat.id by lia; subst f F c I; lia).
  rewrite Z2Nat.id in * by lia. rewrite E2; clear E2. mret.
  change (seg ?l ?i (Z.to_nat (c + f))) with (sg l i (c + f)) in S2.
  assert (Z2 : zlen r2 = 9) by (rewrite (wrote_zlen _ _ _ _ W2); assumption).
  destruct (add_stage3 m (fd_lsu a) (fd_lsu b) r2 (iu a) (iu b) (fu a - f + (c + f)) (fu b - f + (c + f)) (F - f + (c + f)) c2)
    as (r3 & c3 & Hc3 & W3 & S3 & E3); try (apply W2); try assumption; try (subst f F c I; lia).
  rewrite E3; clear E3. fold c I in W3, S3 |- *.
  replace (F - f + (c + f)) with (F + c) in * by lia.
  replace (fu a - f + (c + f)) with (fu a + c) in * by lia.
  replace (fu b - f + (c + f)) with (fu b + c) in * by lia.
  replace (F + c + (I - c)) with (I + F) by lia.
  assert (Z3 : zlen r3 = 9) by (rewrite (wrote_zlen _ _ _ _ W3); assumption).
  assert (L3 : length r3 = 9%nat) by (unfold zlen in Z3; lia).
  (* the equation *)
  assert (EQ : sg r3 0 (I + F) + base ^ (I + F) * c3 = amg a b a + amg a b b).
  { rewrite (amg_align a b a), (amg_align a b b) by (auto; lia). fold f c F.
    replace (I + F) with ((F - f) + ((c + f) + (I - c))) by lia.
    rewrite (sg_app r3 0 (F - f)), (sg_app r3 _ (c + f) (I - c)) by (subst f F c I; lia).
    replace (0 + (F - f)) with (F - f) by lia. replace (F - f + (c + f)) with (F + c) by lia.
    rewrite (wrote_sg r2 r3 (F + c) (I - c) 0 (F - f) W3), (wrote_sg r1 r2 (F - f) (c + f) 0 (F - f) W2) by lia.
    rewrite (wrote_sg r2 r3 (F + c) (I - c) (F - f) (c + f) W3) by (subst f F; lia).
    rewrite S1. rewrite !(base_pow_split (F - f)), !(base_pow_split (c + f)) by (subst f F c I; lia).
    replace (f + c) with (c + f) by lia.
    set (A := base ^ (F - f)) in *. set (B := base ^ (c + f)) in *. set (C := base ^ (I - c)) in *.
    replace (A * (B * C) * c3) with (A * (B * (C * c3))) by ring.
    transitivity (sg (fd_lsu a) 0 (fu a - f) + sg (fd_lsu b) 0 (fu b - f)
       + A * (sg r2 (F - f) (c + f) + B * (sg r3 (F + c) (I - c) + C * c3))); [ring|].
    rewrite S3.
    transitivity (sg (fd_lsu a) 0 (fu a - f) + sg (fd_lsu b) 0 (fu b - f)
       + A * ((sg r2 (F - f) (c + f) + B * c2) + B * (sg (fd_lsu a) (fu a + c) (iu a - c) + sg (fd_lsu b) (fu b + c) (iu b - c)))); [ring|].
    rewrite S2. ring. }
  assert (FR : forall i, I + F <= i -> zn r3 i = 0).
  { intros i Hi. destruct W3 as (_ & _ & F3), W2 as (_ & _ & F2), W1 as (_ & _ & F1).
    try clear EQ; try clear S1; try clear S2; try clear S3. rewrite F3, F2, F1 by (subst f F c I; lia). apply zn_zero_units. }
  assert (U3 : uok r3) by apply W3.
  pose proof (sg_bound r3 0 (I + F) U3 ltac:(try clear EQ; try clear S1; try clear S2; try clear S3; lia)) as B3.
  assert (Hmf : F = units_for (Z.max (fd_frac a) (fd_frac b))).
  { rewrite units_for_max. reflexivity. }
  assert (Hmx : 0 <= Z.max (fd_frac a) (fd_frac b) <= 81) by (try clear EQ; try clear S1; try clear S2; try clear S3; try clear B3; unfold frac_digits in *; lia).
  assert (HN : N = I + F) by reflexivity.
  replace (amg a b a + amg a b b) with (sg r3 0 (I + F) + base ^ (I + F) * c3) by exact EQ.
  subst N. clear EQ S1 S2 S3 B3 W1 W2 W3 HN.
  apply add_finish; try assumption; clear Hmf FR Hmx; subst I F; lia.
Qed.

(** [add_abs] returns only if the result array has room. *)
Lemma add_loop_shape m n a b li ri r si c r' c' : add_loop m n a b li ri r si c = Ret (r', c') ->
  length r' = length r /\ (c' = c \/ c' = 0 \/ c' = 1).
Proof.
  revert li ri r si c; induction n as [|n IH]; cbn [add_loop]; intros li ri r si c H.
  - injection H as <- <-. auto.
  - inv_bind H. inv_bind H. inv_bind H. destruct x1 as [r0 c0]. inv_bind H.
    apply set_inv in H3. destruct H3 as [_ ->]. apply IH in H. rewrite upd_length in H.
    assert (c0 = 0 \/ c0 = 1).
    { unfold add_with_carry in H2. inv_bind H2. inv_bind H2. match goal with H : context[?a >=? UNIT] |- _ => destruct (a >=? UNIT) end.
      - inv_bind H2. injection H2 as <- <-. auto.
      - injection H2 as <- <-. auto. }
    destruct H as [Hl Hc]. split; [assumption|]. destruct Hc as [->|Hc]; tauto.
Qed.
Lemma add_rest_shape m n a li r si c r' c' : add_rest m n a li r si c = Ret (r', c') ->
  length r' = length r /\ (c' = c \/ c' = 0 \/ c' = 1).
Proof.
  revert li r si c; induction n as [|n IH]; cbn [add_rest]; intros li r si c H.
  - injection H as <- <-. auto.
  - inv_bind H. inv_bind H. destruct x0 as [r0 c0]. inv_bind H.
    apply set_inv in H2. destruct H2 as [_ ->]. apply IH in H. rewrite upd_length in H.
    assert (c0 = 0 \/ c0 = 1).
    { unfold add_with_carry in H1. inv_bind H1. inv_bind H1. match goal with H : context[?a >=? UNIT] |- _ => destruct (a >=? UNIT) end.
      - inv_bind H1. injection H1 as <- <-. auto.
      - injection H1 as <- <-. auto. }
    destruct H as [Hl Hc]. split; [assumption|]. destruct Hc as [->|Hc]; tauto.
Qed.
Lemma top_non_zero_fits n l fu k : (0 < n)%nat -> top_non_zero n l fu = Ret k -> Z.of_nat n + fu <= zlen l.
Proof.
  intros Hn H. destruct n as [|n]; [lia|]. cbn [top_non_zero] in H. inv_bind H. apply get_inv in H0. lia.
Qed.

Lemma add_abs_fits m a b r0 x : wf a -> wf b -> add_abs m a b r0 = Ret x ->
  Z.max (iu a) (iu b) + Z.max (fu a) (fu b) <= 8.
Proof.
  intros Ha Hb H. pose proof (wf_counts a Ha) as Ca. pose proof (wf_counts b Hb) as Cb.
  unfold add_abs in H. rewrite !intg_units_ok, !frac_units_ok in H by assumption.
  rewrite !bind_Ret in H. cbn [set_zero reset_units fd_lsu fd_intg fd_frac] in H.
  apply bind_inv in H. destruct H as ([[[li ri] si] r1] & E1 & H).
  assert (L1 : length r1 = 9%nat).
  { destruct (fu a - fu b ?= 0).
    - injection E1 as <- <- <- <-. reflexivity.
    - inv_bind E1. inv_bind E1. injection E1 as <- <- <- <-. apply write_slice_inv in H1.
      destruct H1 as (? & ? & ? & ->). rewrite blit_length; [reflexivity | lia | lia].
    - inv_bind E1. inv_bind E1. injection E1 as <- <- <- <-. apply write_slice_inv in H1.
      destruct H1 as (? & ? & ? & ->). rewrite blit_length; [reflexivity | lia | lia]. }
  apply bind_inv in H. destruct H as ([r2 c2] & E2 & H). apply add_loop_shape in E2. destruct E2 as [L2 C2].
  apply bind_inv in H. destruct H as ([r3 c3] & E3 & H).
  assert (L3 : length r3 = 9%nat /\ (c3 = 0 \/ c3 = 1)).
  { assert (C2' : c2 = 0 \/ c2 = 1) by tauto. clear C2 H E1.
    destruct (iu a - iu b >? 0); [|destruct (iu a - iu b <? 0)].
    - inv_bind E3. destruct x0 as [r4 c4]. apply add_rest_shape in H. destruct H as [L4 C4].
      destruct (c4 >? 0).
      + inv_bind E3. apply set_inv in H. destruct H as [_ ->]. injection E3 as <- <-. rewrite upd_length.
        split; [congruence|]. destruct C4 as [->|C4]; tauto.
      + injection E3 as <- <-. split; [congruence|]. destruct C4 as [->|C4]; tauto.
    - inv_bind E3. destruct x0 as [r4 c4]. apply add_rest_shape in H. destruct H as [L4 C4].
      destruct (c4 >? 0).
      + inv_bind E3. apply set_inv in H. destruct H as [_ ->]. injection E3 as <- <-. rewrite upd_length.
        split; [congruence|]. destruct C4 as [->|C4]; tauto.
      + injection E3 as <- <-. split; [congruence|]. destruct C4 as [->|C4]; tauto.
    - destruct (negb (c2 =? 0)).
      + inv_bind E3. apply set_inv in H. destruct H as [_ ->]. injection E3 as <- <-. rewrite upd_length.
        split; [congruence|]. tauto.
      + injection E3 as <- <-. split; [congruence|]. tauto. }
  destruct L3 as [L3 C3]. clear E1 E3.
  unfold frac_units, frac in H. cbn [fd_frac] in H.
  rewrite get_units_ok in H by (unfold frac_digits in *; lia). rewrite bind_Ret in H.
  rewrite units_for_max in H. change (units_for (fd_frac a)) with (fu a) in H. change (units_for (fd_frac b)) with (fu b) in H.
  apply bind_inv in H. destruct H as (k & E & _).
  apply top_non_zero_fits in E; [|lia]. unfold zlen in E. lia.
Qed.

(** ** Subtraction *)

(** Stage 1 of [sub_abs] (src/arith.rs:299-324). *)
Lemma sub_stage1 m (a b r : list Z) lfu rfu : uok a -> uok b -> uok r ->
  0 <= lfu <= zlen a -> 0 <= rfu <= zlen b -> Z.max lfu rfu <= zlen r ->
  exists r1 c1,
  match lfu - rfu ?= 0 with
  | Gt =>
      s <- slice a 0 (lfu - rfu) ;; r <- write_slice r 0 (lfu - rfu) s ;;
      Ret (lfu - rfu, 0, lfu - rfu, r, 0)
  | Lt =>
      '(r, borrow) <- sub_low m (Z.to_nat (- (lfu - rfu))) b 0 r 0 0 ;;
      Ret (0, - (lfu - rfu), - (lfu - rfu), r, borrow)
  | Eq => Ret (0, 0, 0, r, 0)
  end = Ret (lfu - Z.min lfu rfu, rfu - Z.min lfu rfu, Z.max lfu rfu - Z.min lfu rfu, r1, c1) /\
  wrote r r1 0 (Z.max lfu rfu - Z.min lfu rfu) /\ -1 <= c1 <= 0 /\
  sg r1 0 (Z.max lfu rfu - Z.min lfu rfu) + base ^ (Z.max lfu rfu - Z.min lfu rfu) * c1 =
    sg a 0 (lfu - Z.min lfu rfu) - sg b 0 (rfu - Z.min lfu rfu).
Proof.
  intros Ha Hb Hr Hlf Hrf Hl. destruct (Z.compare_spec (lfu - rfu) 0) as [E|E|E].
  - exists r, 0. replace rfu with lfu by lia. rewrite Z.max_id, Z.min_id, Z.sub_diag.
    split; [reflexivity|]. split; [apply wrote_refl; assumption|]. split; [lia|]. rewrite !sg_nil by lia. lia.
  - replace (Z.min lfu rfu) with lfu by lia. replace (Z.max lfu rfu) with rfu by lia.
    replace (- (lfu - rfu)) with (rfu - lfu) by lia. rewrite Z.sub_diag.
    destruct (sub_low_ok m (Z.to_nat (rfu - lfu)) b 0 r 0 0) as (r1 & c1 & -> & W & Hc & Es);
      try assumption; try lia. rewrite !Z2Nat.id in * by lia.
    exists r1, c1. split; [reflexivity|]. split; [assumption|]. split; [assumption|].
    rewrite (sg_nil a) by lia. unfold sg. lia.
  - rewrite slice_ok by lia. mret.
    replace (Z.min lfu rfu) with rfu by lia. replace (Z.max lfu rfu) with lfu by lia.
    rewrite write_slice_ok by (rewrite ?zlen_sub by lia; lia). mret. rewrite Z.sub_diag.
    set (s := firstn _ _). assert (Hs : zlen s = lfu - rfu) by (subst s; rewrite zlen_sub; lia).
    exists (blit r 0 s), 0. split; [reflexivity|]. split; [|split; [lia|]].
    + rewrite <- Hs. apply wrote_blit; auto; [apply uok_sub; assumption|lia|lia].
    + rewrite (sg_nil b) by lia. rewrite Z.sub_0_r, Z.mul_0_r, Z.add_0_r. apply sg_ext. intros k Hk.
      rewrite zn_blit by lia. replace ((0 <=? 0 + k) && (0 + k <? 0 + zlen s)) with true by lia.
      replace (0 + k - 0) with k by lia. subst s. rewrite zn_sub by lia. f_equal; lia.
Qed.

(** Stage 3 of [sub_abs] (src/arith.rs:338-357). *)
Lemma sub_stage3 m (a b r : list Z) liu riu li ri si c : uok a -> uok b -> uok r ->
  0 <= liu -> 0 <= riu -> 0 <= li -> 0 <= ri -> 0 <= si ->
  li + (liu - Z.min liu riu) <= zlen a -> ri + (riu - Z.min liu riu) <= zlen b ->
  si + (Z.max liu riu - Z.min liu riu) <= zlen r -> -1 <= c <= 0 ->
  exists r1 c1, -1 <= c1 <= 0 /\
  wrote r r1 si (Z.max liu riu - Z.min liu riu) /\
  sg r1 si (Z.max liu riu - Z.min liu riu) + base ^ (Z.max liu riu - Z.min liu riu) * c1 =
    sg a li (liu - Z.min liu riu) - sg b ri (riu - Z.min liu riu) + c /\
  match liu - riu ?= 0 with
    | Gt =>
        '(r, borrow) <- sub_rest m (Z.to_nat (liu - riu)) a li r si c ;;
        Ret (r, borrow, si + (liu - riu))
    | Lt =>
        '(r, borrow) <- sub_low m (Z.to_nat (- (liu - riu))) b ri r si c ;;
        Ret (r, borrow, si - (liu - riu))
    | Eq => Ret (r, c, si)
  end = Ret (r1, c1, si + (Z.max liu riu - Z.min liu riu)).
Proof.
  intros Ha Hb Hr Hli Hri Hl Hr0 Hs La Lb Lr Hc.
  destruct (Z.compare_spec (liu - riu) 0) as [E|E|E].
  - replace riu with liu in * by lia. rewrite Z.min_id, Z.max_id, Z.sub_diag in *.
    exists r, c. split; [assumption|]. split; [apply wrote_refl; assumption|].
    split. { rewrite !sg_nil by lia. rewrite Z.pow_0_r. lia. }
    rewrite Z.add_0_r. reflexivity.
  - replace (Z.min liu riu) with liu in * by lia. replace (Z.max liu riu) with riu in * by lia.
    replace (- (liu - riu)) with (riu - liu) by lia. replace (si - (liu - riu)) with (si + (riu - liu)) by lia.
    destruct (sub_low_ok m (Z.to_nat (riu - liu)) b ri r si c) as (r1 & c1 & -> & W & Hc1 & Es);
      try assumption; try lia.
    rewrite !Z2Nat.id in * by lia. exists r1, c1. split; [assumption|]. split; [assumption|].
    split. { rewrite (sg_nil a) by lia. unfold sg. lia. }
    reflexivity.
  - replace (Z.min liu riu) with riu in * by lia. replace (Z.max liu riu) with liu in * by lia.
    destruct (sub_rest_ok m (Z.to_nat (liu - riu)) a li r si c) as (r1 & c1 & -> & W & Hc1 & Es);
      try assumption; try lia.
    rewrite !Z2Nat.id in * by lia. exists r1, c1. split; [assumption|]. split; [assumption|].
    split. { rewrite (sg_nil b) by lia. unfold sg. lia. }
    reflexivity.
Qed.

(** The end of [sub_abs] (src/arith.rs:359-385). *)
Lemma sub_finish m r3 c3 I F fr ig T : length r3 = 9%nat -> uok r3 -> 0 <= fr <= 81 -> F = units_for fr ->
  0 <= I -> 0 <= F -> I + F <= 8 -> (forall i, I + F <= i -> zn r3 i = 0) -> -1 <= c3 <= 0 ->
  T = sg r3 0 (I + F) + base ^ (I + F) * c3 -> - base ^ (I + F) < T ->
  exists d,
    (let neg := c3 =? -1 in
     r <- (if neg then
          '(r, _) <- negate_units m (Z.to_nat (I + F)) r3 0 0 ;; Ret r
        else Ret r3) ;;
     let res := mkfd ig fr r in
     fu <- frac_units m res ;;
     k <- top_non_zero (Z.to_nat (I + 1)) r fu ;;
     if k >=? 0 then
       Ret (Ok neg, mkfd (as_i8 ((k + 1) * DIGITS_PER_UNIT)) (fd_frac res) r)
     else Ret (Ok neg, mkfd 0 (fd_frac res) r)) = Ret (Ok (T <? 0), d) /\ abs_result d fr (Z.abs T).
Proof.
  intros L3 U3 Hfr HF HI HF0 H8 FR Hc HT HTb.
  assert (Z3 : zlen r3 = 9) by (unfold zlen; lia).
  pose proof (sg_bound r3 0 (I + F) U3 ltac:(try clear EQ; try clear S1; try clear S2; try clear S3; lia)) as B3.
  cbv zeta.
  assert (Hneg : (c3 =? -1) = (T <? 0)).
  { assert (c3 = 0 \/ c3 = -1) as [->| ->] by lia; [|cbn]; lia. }
  assert (exists r, (if c3 =? -1 then '(r, _) <- negate_units m (Z.to_nat (I + F)) r3 0 0 ;; Ret r else Ret r3) = Ret r
     /\ length r = 9%nat /\ uok r /\ (forall i, I + F <= i -> zn r i = 0) /\ sg r 0 (I + F) = Z.abs T) as (r & -> & L & U & FR' & ET).
  { destruct (c3 =? -1) eqn:E.
    - replace c3 with (-1) in * by lia.
      destruct (negate_units_ok m (Z.to_nat (I + F)) r3 0 0) as (r4 & c4 & -> & (L4 & U4 & F4) & Hc4 & E4);
        try assumption; try lia.
      rewrite Z2Nat.id in * by lia. mret. exists r4. split; [reflexivity|]. split; [congruence|]. split; [assumption|].
      split. { intros i Hi. rewrite F4 by lia. auto. }
      change (seg ?l ?i (Z.to_nat (I + F))) with (sg l i (I + F)) in E4.
      pose proof (sg_bound r4 0 (I + F) U4 ltac:(lia)) as B4. assert (c4 = 0 \/ c4 = -1) as [->| ->] by lia; lia.
    - exists r3. replace c3 with 0 in * by lia. repeat split; try assumption. lia. }
  mret. rewrite Hneg. unfold frac_units, frac. cbn [fd_frac]. rewrite get_units_ok by lia. mret. rewrite <- HF.
  assert (Z : zlen r = 9) by (unfold zlen; lia).
  destruct (top_non_zero_ok (Z.to_nat (I + 1)) r F) as (k & -> & Hk & Hz & Hp); try assumption; try lia.
  mret.
  destruct (top_result bool (T <? 0) r fr F (Z.to_nat (I + 1)) k) as (d & -> & _ & Hd);
      try assumption; try lia; try (intros i Hi; apply FR'; lia).
  exists d. split; [reflexivity|]. rewrite Z2Nat.id in Hd by lia.
  replace (I + 1 + F) with (I + F + 1) in Hd by lia. rewrite sg_snoc, (FR' (0 + (I + F))) in Hd by lia.
  rewrite Z.mul_0_r, Z.add_0_r, ET in Hd. exact Hd.
Qed.

Lemma sub_abs_run m a b r0 : wf a -> wf b ->
  Z.max (iu a) (iu b) + Z.max (fu a) (fu b) <= 8 ->
  exists d, sub_abs m a b r0 = Ret (Ok (amg a b a - amg a b b <? 0), d) /\
     abs_result d (Z.max (fd_frac a) (fd_frac b)) (Z.abs (amg a b a - amg a b b)).
Proof.
  intros Ha Hb H8.
  pose proof (wf_counts a Ha) as Ca. pose proof (wf_counts b Hb) as Cb.
  pose proof (wf_zlen a Ha) as La. pose proof (wf_zlen b Hb) as Lb.
  pose proof (wf_uok a Ha) as Ua. pose proof (wf_uok b Hb) as Ub.
  unfold sub_abs. rewrite !intg_units_ok, !frac_units_ok by assumption.
  mret. mret. mret. mret. cbn [set_zero reset_units fd_lsu fd_intg fd_frac].
  destruct (sub_stage1 m (fd_lsu a) (fd_lsu b) zero_units (fu a) (fu b)) as (r1 & c1 & E1 & W1 & Hc1 & S1);
    try assumption; try (apply uok_repeat0); try (rewrite ?zlen_zero_units; lia).
  cbn zeta in E1 |- *. rewrite E1; clear E1. mret.
  set (f := Z.min (fu a) (fu b)) in *. set (F := Z.max (fu a) (fu b)) in *.
  set (c := Z.min (iu a) (iu b)). set (I := Z.max (iu a) (iu b)) in *.
  assert (Z1 : zlen r1 = 9) by (rewrite (wrote_zlen _ _ _ _ W1); reflexivity).
  assert (Hf0 : 0 <= f) by (subst f; lia). assert (Hc0 : 0 <= c) by (subst c; lia).
  destruct (sub_loop_ok m (Z.to_nat (c + f)) (fd_lsu a) (fd_lsu b) (fu a - f) (fu b - f) r1 (F - f) c1)
    as (r2 & c2 & E2 & W2 & Hc2 & S2); try (apply W1); try assumption;
    try (clear S1; rewrite ?Z2Nat.id by lia; subst f F c I; lia).
  rewrite Z2Nat.id in * by lia. rewrite E2; clear E2. mret.
  change (seg ?l ?i (Z.to_nat (c + f))) with (sg l i (c + f)) in S2.
  assert (Z2 : zlen r2 = 9) by (rewrite (wrote_zlen _ _ _ _ W2); assumption).
  destruct (sub_stage3 m (fd_lsu a) (fd_lsu b) r2 (iu a) (iu b) (fu a - f + (c + f)) (fu b - f + (c + f)) (F - f + (c + f)) c2)
    as (r3 & c3 & Hc3 & W3 & S3 & E3); try (apply W2); try assumption; try (clear S1 S2; subst f F c I; lia).
  rewrite E3; clear E3. fold c I in W3, S3 |- *. mret.
  replace (F - f + (c + f)) with (F + c) in * by lia.
  replace (fu a - f + (c + f)) with (fu a + c) in * by lia.
  replace (fu b - f + (c + f)) with (fu b + c) in * by lia.
  replace (F + c + (I - c)) with (I + F) by lia.
  assert (Z3 : zlen r3 = 9) by (rewrite (wrote_zlen _ _ _ _ W3); assumption).
  assert (L3 : length r3 = 9%nat) by (unfold zlen in Z3; lia).
  assert (EQ : amg a b a - amg a b b = sg r3 0 (I + F) + base ^ (I + F) * c3).
  { symmetry. rewrite (amg_align a b a), (amg_align a b b) by (auto; lia). fold f c F.
    replace (I + F) with ((F - f) + ((c + f) + (I - c))) by lia.
    rewrite (sg_app r3 0 (F - f)), (sg_app r3 _ (c + f) (I - c)) by (subst f F c I; lia).
    replace (0 + (F - f)) with (F - f) by lia. replace (F - f + (c + f)) with (F + c) by lia.
    rewrite (wrote_sg r2 r3 (F + c) (I - c) 0 (F - f) W3), (wrote_sg r1 r2 (F - f) (c + f) 0 (F - f) W2) by lia.
    rewrite (wrote_sg r2 r3 (F + c) (I - c) (F - f) (c + f) W3) by (subst f F; lia).
    rewrite !(base_pow_split (F - f)), !(base_pow_split (c + f)) by (subst f F c I; lia).
    replace (f + c) with (c + f) by lia.
    set (A := base ^ (F - f)) in *. set (B := base ^ (c + f)) in *. set (C := base ^ (I - c)) in *.
    transitivity (sg r1 0 (F - f)
       + A * (sg r2 (F - f) (c + f) + B * (sg r3 (F + c) (I - c) + C * c3))); [ring|].
    rewrite S3.
    transitivity (sg r1 0 (F - f)
       + A * ((sg r2 (F - f) (c + f) + B * c2) + B * (sg (fd_lsu a) (fu a + c) (iu a - c) - sg (fd_lsu b) (fu b + c) (iu b - c)))); [ring|].
    rewrite S2.
    transitivity ((sg r1 0 (F - f) + A * c1)
       + A * ((sg (fd_lsu a) (fu a - f) (c + f) - sg (fd_lsu b) (fu b - f) (c + f)) + B * (sg (fd_lsu a) (fu a + c) (iu a - c) - sg (fd_lsu b) (fu b + c) (iu b - c)))); [ring|].
    rewrite S1. ring. }
  assert (FR : forall i, I + F <= i -> zn r3 i = 0).
  { clear S1 S2 S3 EQ. intros i Hi. destruct W3 as (_ & _ & F3), W2 as (_ & _ & F2), W1 as (_ & _ & F1).
    try clear EQ; try clear S1; try clear S2; try clear S3. rewrite F3, F2, F1 by (subst f F c I; lia). apply zn_zero_units. }
  assert (U3 : uok r3) by apply W3.
  clear S1 S2 S3 W1 W2 W3.
  assert (Hmf : F = units_for (Z.max (fd_frac a) (fd_frac b))).
  { rewrite units_for_max. reflexivity. }
  assert (Hmx : 0 <= Z.max (fd_frac a) (fd_frac b) <= 81) by (clear EQ; unfold frac_digits in *; lia).
  pose proof (amg_bound a b a Ha Hb (or_introl eq_refl)) as Ba.
  pose proof (amg_bound a b b Ha Hb (or_intror eq_refl)) as Bb. fold I F in Ba, Bb.
  apply sub_finish with (c3 := c3); try assumption; clear EQ Hmf FR Hmx; [subst I F; lia | subst I F; lia | lia].
Qed.
