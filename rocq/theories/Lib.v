(** * Lemma library: machine integers, arrays, segment values, accessors. *)
From Coq Require Import ZArith List Bool Lia QArith.
From Coq Require Import ZifyBool ZifyNat.
Import ListNotations.
From Verif Require Import Rust Tables Model_Base Spec.
Open Scope Z_scope.
Ltac Zify.zify_post_hook ::= Z.div_mod_to_equations.

(** ** outcome *)

Lemma bind_Ret A B (a : A) (k : A -> outcome B) : bind (Ret a) k = k a.
Proof. reflexivity. Qed.

Lemma bind_inv A B (o : outcome A) (k : A -> outcome B) b :
  bind o k = Ret b -> exists a, o = Ret a /\ k a = Ret b.
Proof. destruct o; cbn; intros H; [eauto | discriminate]. Qed.

Ltac inv_bind H :=
  let a := fresh "x" in let H1 := fresh "H" in
  apply bind_inv in H; destruct H as (a & H1 & H).

Lemma Ret_inj A (a b : A) : Ret a = Ret b -> a = b.
Proof. congruence. Qed.

Lemma chk_ok m lo hi z : lo <= z <= hi -> chk m lo hi z = Ret z.
Proof. intros H. unfold chk. replace ((lo <=? z) && (z <=? hi)) with true by lia. reflexivity. Qed.
Lemma i8_ok m z : -128 <= z <= 127 -> i8 m z = Ret z.
Proof. apply chk_ok. Qed.
Lemma i32_ok m z : -2147483648 <= z <= 2147483647 -> i32 m z = Ret z.
Proof. apply chk_ok. Qed.
Lemma i64_ok m z : -9223372036854775808 <= z <= 9223372036854775807 -> i64 m z = Ret z.
Proof. apply chk_ok. Qed.
Lemma isize_ok m z : -9223372036854775808 <= z <= 9223372036854775807 -> isize m z = Ret z.
Proof. apply chk_ok. Qed.
Lemma u64_ok m z : 0 <= z <= 18446744073709551615 -> u64 m z = Ret z.
Proof. apply chk_ok. Qed.
Lemma usize_ok m z : 0 <= z <= 18446744073709551615 -> usize m z = Ret z.
Proof. apply chk_ok. Qed.

Lemma as_i8_id z : -128 <= z < 128 -> as_i8 z = z.
Proof. unfold as_i8. lia. Qed.
Lemma as_u8_id z : 0 <= z < 256 -> as_u8 z = z.
Proof. unfold as_u8. lia. Qed.
Lemma as_i32_id z : -2147483648 <= z < 2147483648 -> as_i32 z = z.
Proof. unfold as_i32. lia. Qed.
Lemma as_u32_id z : 0 <= z < 4294967296 -> as_u32 z = z.
Proof. unfold as_u32. lia. Qed.
Lemma as_usize_id z : 0 <= z < 18446744073709551616 -> as_usize z = z.
Proof. unfold as_usize. lia. Qed.
Lemma as_isize_id z : -9223372036854775808 <= z < 9223372036854775808 -> as_isize z = z.
Proof. unfold as_isize. lia. Qed.

Lemma i64_div_ok m a b : 0 <= a <= 9223372036854775807 -> 0 < b -> i64_div m a b = Ret (a / b).
Proof.
  intros Ha Hb. unfold i64_div. replace (b =? 0) with false by lia.
  rewrite Z.quot_div_nonneg by lia. apply i64_ok.
  assert (0 <= a / b) by (apply Z.div_pos; lia).
  assert (a / b <= a) by (apply Z.div_le_upper_bound; nia). lia.
Qed.
Lemma i32_div_ok m a b : 0 <= a <= 2147483647 -> 0 < b -> i32_div m a b = Ret (a / b).
Proof.
  intros Ha Hb. unfold i32_div. replace (b =? 0) with false by lia.
  rewrite Z.quot_div_nonneg by lia. apply i32_ok.
  assert (0 <= a / b) by (apply Z.div_pos; lia).
  assert (a / b <= a) by (apply Z.div_le_upper_bound; nia). lia.
Qed.
Lemma i32_rem_ok m a b : 0 <= a <= 2147483647 -> 0 < b <= 2147483647 -> i32_rem m a b = Ret (a mod b).
Proof.
  intros Ha Hb. unfold i32_rem. replace (b =? 0) with false by lia.
  rewrite Z.rem_mod_nonneg by lia. apply i32_ok.
  pose proof (Z.mod_pos_bound a b). lia.
Qed.

Lemma debug_assert_ok m b : b = true -> debug_assert m b = Ret tt.
Proof. intros ->. destruct m; reflexivity. Qed.
Lemma debug_assert_inv m b u : debug_assert m b = Ret u -> m = Debug -> b = true.
Proof. intros H ->. destruct b; [reflexivity | discriminate]. Qed.

(** ** Arrays *)

Definition zn (l : list Z) (i : Z) : Z := nth (Z.to_nat i) l 0.

Definition uok (l : list Z) : Prop := Forall (fun u => 0 <= u < base) l.

Lemma zlen_nonneg l : 0 <= zlen l.
Proof. unfold zlen. lia. Qed.

Lemma get_ok l i : 0 <= i < zlen l -> get l i = Ret (zn l i).
Proof. intros H. unfold get. replace ((0 <=? i) && (i <? zlen l)) with true by lia. reflexivity. Qed.
Lemma get_inv l i x : get l i = Ret x -> 0 <= i < zlen l /\ x = zn l i.
Proof.
  unfold get. destruct ((0 <=? i) && (i <? zlen l)) eqn:E; [|discriminate].
  intros [= <-]. split; [lia | reflexivity].
Qed.
Lemma get_out l i : ~ (0 <= i < zlen l) -> get l i = Panic PIndex.
Proof. intros H. unfold get. replace ((0 <=? i) && (i <? zlen l)) with false by lia. reflexivity. Qed.

Lemma set_ok l i v : 0 <= i < zlen l -> set l i v = Ret (upd (Z.to_nat i) v l).
Proof. intros H. unfold set. replace ((0 <=? i) && (i <? zlen l)) with true by lia. reflexivity. Qed.
Lemma set_inv l i v x : set l i v = Ret x -> 0 <= i < zlen l /\ x = upd (Z.to_nat i) v l.
Proof.
  unfold set. destruct ((0 <=? i) && (i <? zlen l)) eqn:E; [|discriminate].
  intros [= <-]. split; [lia | reflexivity].
Qed.
Lemma set_out l i v : ~ (0 <= i < zlen l) -> set l i v = Panic PIndex.
Proof. intros H. unfold set. replace ((0 <=? i) && (i <? zlen l)) with false by lia. reflexivity. Qed.

Lemma upd_length n v l : length (upd n v l) = length l.
Proof. revert n; induction l as [|x l IH]; intros [|n]; cbn; auto. Qed.
Lemma zlen_upd n v l : zlen (upd n v l) = zlen l.
Proof. unfold zlen. now rewrite upd_length. Qed.

Lemma nth_upd n v l k : (n < length l)%nat ->
  nth k (upd n v l) 0 = if Nat.eqb k n then v else nth k l 0.
Proof.
  revert n k; induction l as [|x l IH]; intros [|n] [|k] H; cbn in *; try lia; auto.
  apply IH. lia.
Qed.
Lemma zn_upd l i v k : 0 <= i < zlen l -> 0 <= k ->
  zn (upd (Z.to_nat i) v l) k = if k =? i then v else zn l k.
Proof.
  unfold zn, zlen. intros Hi Hk. rewrite nth_upd by lia.
  destruct (Nat.eqb_spec (Z.to_nat k) (Z.to_nat i)); destruct (Z.eqb_spec k i); try lia; auto.
Qed.
Lemma zn_upd_eq l i v : 0 <= i < zlen l -> zn (upd (Z.to_nat i) v l) i = v.
Proof. intros H. rewrite zn_upd, Z.eqb_refl by lia. reflexivity. Qed.
Lemma zn_upd_ne l i v k : 0 <= i < zlen l -> 0 <= k -> k <> i ->
  zn (upd (Z.to_nat i) v l) k = zn l k.
Proof. intros. rewrite zn_upd by lia. destruct (Z.eqb_spec k i); [lia | reflexivity]. Qed.

Lemma Forall_upd P n v l : Forall P l -> P v -> Forall P (upd n v l).
Proof.
  intros H Hv. revert n; induction H as [|x l Hx Hl IH]; intros [|n]; cbn; constructor; auto.
Qed.
Lemma uok_upd n v l : uok l -> 0 <= v < base -> uok (upd n v l).
Proof. intros H Hv. apply Forall_upd; assumption. Qed.

Lemma uok_zn l i : uok l -> 0 <= zn l i < base.
Proof.
  intros H. unfold zn. destruct (Nat.lt_ge_cases (Z.to_nat i) (length l)) as [Hi|Hi].
  - exact (proj1 (Forall_nth _ _) H _ _ Hi).
  - rewrite nth_overflow by lia. unfold base. lia.
Qed.
Lemma uok_intro l : (forall i, 0 <= i < zlen l -> 0 <= zn l i < base) -> uok l.
Proof.
  intros H. apply Forall_nth. intros i d Hi.
  rewrite (nth_indep _ _ 0) by lia.
  specialize (H (Z.of_nat i)). unfold zn, zlen in H. rewrite Nat2Z.id in H. apply H. lia.
Qed.
Lemma zn_out l i : zlen l <= i -> zn l i = 0.
Proof. intros H. unfold zn. apply nth_overflow. unfold zlen in H. lia. Qed.

Lemma zn_ext l l' : length l = length l' -> (forall i, 0 <= i < zlen l -> zn l i = zn l' i) -> l = l'.
Proof.
  intros Hl H. apply (nth_ext _ _ 0 0 Hl). intros n Hn.
  specialize (H (Z.of_nat n)). unfold zn, zlen in H. rewrite Nat2Z.id in H. apply H. lia.
Qed.

Lemma uok_repeat0 n : uok (repeat 0 n).
Proof. apply Forall_forall. intros x Hx. apply repeat_spec in Hx. unfold base. lia. Qed.
Lemma zn_repeat0 n i : zn (repeat 0 n) i = 0.
Proof.
  unfold zn. destruct (Nat.lt_ge_cases (Z.to_nat i) n).
  - apply nth_repeat.
  - apply nth_overflow. rewrite repeat_length. lia.
Qed.
Lemma zlen_repeat v n : zlen (repeat v n) = Z.of_nat n.
Proof. unfold zlen. now rewrite repeat_length. Qed.

(** slices *)
Lemma zn_cons x l i : 0 <= i -> zn (x :: l) i = if i =? 0 then x else zn l (i - 1).
Proof.
  intros H. unfold zn. destruct (Z.eqb_spec i 0) as [->|Hn]; [reflexivity|].
  replace (Z.to_nat i) with (S (Z.to_nat (i - 1))) by lia. reflexivity.
Qed.
Lemma zlen_cons x l : zlen (x :: l) = 1 + zlen l.
Proof. unfold zlen. cbn [length]. lia. Qed.
Lemma zlen_app l l' : zlen (l ++ l') = zlen l + zlen l'.
Proof. unfold zlen. rewrite app_length. lia. Qed.
Lemma zn_app l l' i : 0 <= i -> zn (l ++ l') i = if i <? zlen l then zn l i else zn l' (i - zlen l).
Proof.
  intros H. unfold zn, zlen. destruct (Z.ltb_spec i (Z.of_nat (length l))).
  - apply app_nth1. lia.
  - rewrite app_nth2 by lia. f_equal. lia.
Qed.
Lemma zn_skipn l k i : 0 <= i -> zn (skipn k l) i = zn l (i + Z.of_nat k).
Proof.
  intros H. unfold zn. revert l. induction k as [|k IH]; intros l.
  - rewrite Z.add_0_r. reflexivity.
  - destruct l as [|x l]; cbn [skipn].
    + destruct (Z.to_nat i), (Z.to_nat (i + Z.of_nat (S k))); reflexivity.
    + rewrite IH. replace (Z.to_nat (i + Z.of_nat (S k))) with (S (Z.to_nat (i + Z.of_nat k))) by lia.
      reflexivity.
Qed.
Lemma zn_firstn l k i : 0 <= i -> zn (firstn k l) i = if i <? Z.of_nat k then zn l i else 0.
Proof.
  intros H. unfold zn. destruct (Z.ltb_spec i (Z.of_nat k)).
  - assert (Hn : (Z.to_nat i < k)%nat) by lia. clear H H0. revert k l Hn.
    induction (Z.to_nat i) as [|n IH]; intros [|k] [|x l] Hn; cbn; try lia; auto. apply IH. lia.
  - apply nth_overflow. rewrite firstn_length. lia.
Qed.
Lemma zlen_firstn l k : zlen (firstn k l) = Z.min (Z.of_nat k) (zlen l).
Proof. unfold zlen. rewrite firstn_length. lia. Qed.
Lemma zlen_skipn l k : zlen (skipn k l) = Z.max 0 (zlen l - Z.of_nat k).
Proof. unfold zlen. rewrite skipn_length. lia. Qed.

Lemma blit_length l a src : 0 <= a -> a + zlen src <= zlen l -> length (blit l a src) = length l.
Proof.
  unfold blit, zlen. intros Ha H. rewrite !app_length, firstn_length, skipn_length. lia.
Qed.
Lemma zlen_blit l a src : 0 <= a -> a + zlen src <= zlen l -> zlen (blit l a src) = zlen l.
Proof. intros. unfold zlen. now rewrite blit_length. Qed.
Lemma zn_blit l a src i : 0 <= a -> a + zlen src <= zlen l -> 0 <= i ->
  zn (blit l a src) i = if (a <=? i) && (i <? a + zlen src) then zn src (i - a) else zn l i.
Proof.
  intros Ha H Hi. unfold blit.
  assert (E1 : zlen (firstn (Z.to_nat a) l) = a).
  { rewrite zlen_firstn. pose proof (zlen_nonneg src). lia. }
  rewrite zn_app by lia. rewrite E1.
  destruct (Z.ltb_spec i a) as [H1|H1].
  - rewrite zn_firstn by lia. destruct (Z.ltb_spec i (Z.of_nat (Z.to_nat a))); [|lia].
    replace (a <=? i) with false by lia. reflexivity.
  - rewrite zn_app by lia. destruct (Z.ltb_spec (i - a) (zlen src)) as [H2|H2].
    + replace ((a <=? i) && (i <? a + zlen src)) with true by lia. reflexivity.
    + replace ((a <=? i) && (i <? a + zlen src)) with false by lia.
      rewrite zn_skipn by lia. f_equal. unfold zlen in *. lia.
Qed.

Lemma Forall_firstn A (P : A -> Prop) n l : Forall P l -> Forall P (firstn n l).
Proof. intros H. rewrite <- (firstn_skipn n l) in H. apply Forall_app in H. tauto. Qed.
Lemma Forall_skipn A (P : A -> Prop) n l : Forall P l -> Forall P (skipn n l).
Proof. intros H. rewrite <- (firstn_skipn n l) in H. apply Forall_app in H. tauto. Qed.
Lemma uok_blit l a src : uok l -> uok src -> uok (blit l a src).
Proof.
  intros Hl Hs. unfold blit. apply Forall_app. split; [apply Forall_firstn, Hl|].
  apply Forall_app. split; [exact Hs | apply Forall_skipn, Hl].
Qed.
Lemma uok_repeat v n : 0 <= v < base -> uok (repeat v n).
Proof. intros H. apply Forall_forall. intros x Hx. apply repeat_spec in Hx. lia. Qed.

Lemma slice_ok l a b : 0 <= a <= b -> b <= zlen l ->
  slice l a b = Ret (firstn (Z.to_nat (b - a)) (skipn (Z.to_nat a) l)).
Proof. intros. unfold slice. replace ((0 <=? a) && (a <=? b) && (b <=? zlen l)) with true by lia. reflexivity. Qed.
Lemma slice_inv l a b x : slice l a b = Ret x ->
  0 <= a <= b /\ b <= zlen l /\ x = firstn (Z.to_nat (b - a)) (skipn (Z.to_nat a) l).
Proof.
  unfold slice. destruct ((0 <=? a) && (a <=? b) && (b <=? zlen l)) eqn:E; [|discriminate].
  intros [= <-]. repeat split; lia.
Qed.
(** the slice as an array: *)
Lemma zn_sub l a b i : 0 <= a <= b -> b <= zlen l -> 0 <= i < b - a ->
  zn (firstn (Z.to_nat (b - a)) (skipn (Z.to_nat a) l)) i = zn l (a + i).
Proof.
  intros. rewrite zn_firstn by lia. replace (i <? Z.of_nat (Z.to_nat (b - a))) with true by lia.
  rewrite zn_skipn by lia. f_equal. lia.
Qed.
Lemma zlen_sub l a b : 0 <= a <= b -> b <= zlen l ->
  zlen (firstn (Z.to_nat (b - a)) (skipn (Z.to_nat a) l)) = b - a.
Proof. intros. rewrite zlen_firstn, zlen_skipn. lia. Qed.
Lemma uok_sub l a b : uok l -> uok (firstn (Z.to_nat (b - a)) (skipn (Z.to_nat a) l)).
Proof. intros. apply Forall_firstn, Forall_skipn, H. Qed.

Lemma write_slice_ok l a b s : 0 <= a <= b -> b <= zlen l -> b - a = zlen s ->
  write_slice l a b s = Ret (blit l a s).
Proof.
  intros. unfold write_slice.
  replace ((0 <=? a) && (a <=? b) && (b <=? zlen l) && (b - a =? zlen s)) with true by lia. reflexivity.
Qed.
Lemma write_slice_inv l a b s x : write_slice l a b s = Ret x ->
  0 <= a <= b /\ b <= zlen l /\ b - a = zlen s /\ x = blit l a s.
Proof.
  unfold write_slice. destruct ((0 <=? a) && (a <=? b) && (b <=? zlen l) && (b - a =? zlen s)) eqn:E; [|discriminate].
  intros [= <-]. repeat split; lia.
Qed.
Lemma fill_ok l a b v : 0 <= a <= b -> b <= zlen l ->
  fill l a b v = Ret (blit l a (repeat v (Z.to_nat (b - a)))).
Proof. intros. unfold fill. replace ((0 <=? a) && (a <=? b) && (b <=? zlen l)) with true by lia. reflexivity. Qed.
Lemma fill_inv l a b v x : fill l a b v = Ret x ->
  0 <= a <= b /\ b <= zlen l /\ x = blit l a (repeat v (Z.to_nat (b - a))).
Proof.
  unfold fill. destruct ((0 <=? a) && (a <=? b) && (b <=? zlen l)) eqn:E; [|discriminate].
  intros [= <-]. repeat split; lia.
Qed.
Lemma copy_within_ok l a b d : 0 <= a <= b -> b <= zlen l -> 0 <= d -> d <= zlen l - (b - a) ->
  copy_within l a b d = Ret (blit l d (firstn (Z.to_nat (b - a)) (skipn (Z.to_nat a) l))).
Proof.
  intros. unfold copy_within.
  replace ((0 <=? a) && (a <=? b) && (b <=? zlen l) && (0 <=? d) && (d <=? zlen l - (b - a))) with true by lia.
  reflexivity.
Qed.
Lemma copy_within_inv l a b d x : copy_within l a b d = Ret x ->
  0 <= a <= b /\ b <= zlen l /\ 0 <= d /\ d <= zlen l - (b - a) /\
  x = blit l d (firstn (Z.to_nat (b - a)) (skipn (Z.to_nat a) l)).
Proof.
  unfold copy_within.
  destruct ((0 <=? a) && (a <=? b) && (b <=? zlen l) && (0 <=? d) && (d <=? zlen l - (b - a))) eqn:E; [|discriminate].
  intros [= <-]. repeat split; lia.
Qed.

(** ** Segment values *)

(** sum of l[i+k] * base^k for k < n *)
Fixpoint seg (l : list Z) (i : Z) (n : nat) : Z :=
  match n with
  | O => 0
  | S n' => zn l i + base * seg l (i + 1) n'
  end.

Lemma base_pos : 0 < base. Proof. reflexivity. Qed.
Lemma pow_base_pos n : 0 <= n -> 0 < base ^ n.
Proof. intros. apply Z.pow_pos_nonneg; [reflexivity | assumption]. Qed.
Lemma base_S n : 0 <= n -> base ^ (n + 1) = base * base ^ n.
Proof. intros. rewrite Z.add_1_r, Z.pow_succ_r by lia. reflexivity. Qed.

Lemma seg_app l i a b : seg l i (a + b) = seg l i a + base ^ Z.of_nat a * seg l (i + Z.of_nat a) b.
Proof.
  revert i; induction a as [|a IH]; intros i; cbn [seg Nat.add].
  - rewrite Z.add_0_r, Z.pow_0_r. lia.
  - rewrite IH. replace (i + 1 + Z.of_nat a) with (i + Z.of_nat (S a)) by lia.
    replace (Z.of_nat (S a)) with (Z.of_nat a + 1) by lia. rewrite base_S by lia. ring.
Qed.
Lemma seg_snoc l i n : seg l i (S n) = seg l i n + base ^ Z.of_nat n * zn l (i + Z.of_nat n).
Proof. replace (S n) with (n + 1)%nat by lia. rewrite seg_app. cbn [seg]. lia. Qed.

Lemma seg_ext l l' i i' n : (forall k, 0 <= k < Z.of_nat n -> zn l (i + k) = zn l' (i' + k)) ->
  seg l i n = seg l' i' n.
Proof.
  revert i i'; induction n as [|n IH]; intros i i' H; cbn [seg]; [reflexivity|].
  f_equal.
  - specialize (H 0). rewrite !Z.add_0_r in H. apply H. lia.
  - f_equal. apply IH. intros k Hk. specialize (H (k + 1)).
    replace (i + 1 + k) with (i + (k + 1)) by lia.
    replace (i' + 1 + k) with (i' + (k + 1)) by lia. apply H. lia.
Qed.
Lemma seg_0 l i n : (forall k, 0 <= k < Z.of_nat n -> zn l (i + k) = 0) -> seg l i n = 0.
Proof.
  intros H. rewrite (seg_ext l (repeat 0 n) i 0).
  - clear. generalize 0 at 2. induction n as [|n IH] in |- *; [reflexivity|].
    intros z. cbn [seg]. 
    assert (forall k j, seg (repeat 0 k) j n = 0) as ->.
    { clear. induction n as [|n IH]; intros k j; cbn [seg]; [reflexivity|]. rewrite zn_repeat0, IH. lia. }
    rewrite zn_repeat0. lia.
  - intros k Hk. rewrite zn_repeat0. auto.
Qed.
Lemma seg_nonneg l i n : uok l -> 0 <= seg l i n.
Proof.
  intros H. revert i; induction n as [|n IH]; intros i; cbn [seg]; [lia|].
  pose proof (uok_zn l i H). specialize (IH (i + 1)). pose proof base_pos. nia.
Qed.
Lemma seg_bound l i n : uok l -> 0 <= seg l i n < base ^ Z.of_nat n.
Proof.
  intros H. split; [apply seg_nonneg, H|].
  revert i; induction n as [|n IH]; intros i; cbn [seg]; [reflexivity|].
  pose proof (uok_zn l i H). specialize (IH (i + 1)).
  replace (Z.of_nat (S n)) with (Z.of_nat n + 1) by lia. rewrite base_S by lia.
  pose proof base_pos. nia.
Qed.
Lemma seg_upd_out l i n j v : 0 <= j < zlen l -> 0 <= i -> ~ (i <= j < i + Z.of_nat n) ->
  seg (upd (Z.to_nat j) v l) i n = seg l i n.
Proof. intros. apply seg_ext. intros k Hk. apply zn_upd_ne; lia. Qed.

Lemma units_value_seg l n : units_value (firstn n l) = seg l 0 n.
Proof.
  revert n; induction l as [|x l IH]; intros n.
  - rewrite firstn_nil. cbn [units_value]. symmetry. apply seg_0. intros k Hk. apply zn_out. cbn. lia.
  - destruct n as [|n]; [reflexivity|]. cbn [firstn units_value seg]. rewrite IH. f_equal. f_equal.
    apply seg_ext. intros k Hk. rewrite zn_cons by lia. destruct (Z.eqb_spec (0 + 1 + k) 0); [lia|].
    f_equal. lia.
Qed.

Lemma seg_zero_inv l i n : uok l -> seg l i n = 0 -> forall k, i <= k < i + Z.of_nat n -> zn l k = 0.
Proof.
  intros Hu. revert i; induction n as [|n IH]; intros i H k Hk; [lia|].
  cbn [seg] in H. pose proof (uok_zn l i Hu). pose proof (seg_nonneg l (i + 1) n Hu).
  pose proof base_pos.
  assert (zn l i = 0) by nia. assert (seg l (i + 1) n = 0) by nia.
  destruct (Z.eq_dec k i) as [->|Hne]; [assumption|]. apply (IH (i + 1)); [assumption | lia].
Qed.
Lemma seg_inj l l' i i' n : uok l -> uok l' -> seg l i n = seg l' i' n ->
  forall k, 0 <= k < Z.of_nat n -> zn l (i + k) = zn l' (i' + k).
Proof.
  intros Hu Hu'. revert i i'; induction n as [|n IH]; intros i i' H k Hk; [lia|].
  cbn [seg] in H. pose proof (uok_zn l i Hu). pose proof (uok_zn l' i' Hu').
  pose proof base_pos.
  assert (E : zn l i = zn l' i' /\ seg l (i + 1) n = seg l' (i' + 1) n) by (unfold base in *; lia).
  destruct E as [E1 E2].
  destruct (Z.eq_dec k 0) as [->|Hne]; [rewrite !Z.add_0_r; exact E1|].
  replace (i + k) with (i + 1 + (k - 1)) by lia. replace (i' + k) with (i' + 1 + (k - 1)) by lia.
  apply IH; [exact E2 | lia].
Qed.

(** ** Tables and accessors *)

(** Finite sweeps over integer ranges. *)
Lemma sweep (P : Z -> bool) (lo : Z) (n : nat) :
  forallb (fun k => P (lo + Z.of_nat k)) (seq 0 n) = true ->
  forall z, lo <= z < lo + Z.of_nat n -> P z = true.
Proof.
  intros H z Hz. rewrite forallb_forall in H.
  specialize (H (Z.to_nat (z - lo))). rewrite in_seq in H.
  replace (lo + Z.of_nat (Z.to_nat (z - lo))) with z in H by lia. apply H. lia.
Qed.

Definition ret_eqb (o : outcome Z) (z : Z) : bool :=
  match o with Ret x => x =? z | Panic _ => false end.
Lemma ret_eqb_ok o z : ret_eqb o z = true -> o = Ret z.
Proof. destruct o; cbn; intros H; [f_equal; lia | discriminate]. Qed.

Lemma div9_ok d : 0 <= d < 128 -> div9 d = Ret (d / 9).
Proof.
  intros H. apply ret_eqb_ok. revert d H.
  refine (sweep (fun d => ret_eqb (div9 d) (d / 9)) 0 128 _). vm_compute. reflexivity.
Qed.
Lemma mod9_ok d : 0 <= d < 128 -> mod9 d = Ret (d mod 9).
Proof.
  intros H. apply ret_eqb_ok. revert d H.
  refine (sweep (fun d => ret_eqb (mod9 d) (d mod 9)) 0 128 _). vm_compute. reflexivity.
Qed.
Lemma get_units_ok m d : 0 <= d <= 119 -> get_units m d = Ret (units_for d).
Proof.
  intros H. unfold get_units. rewrite i8_ok by lia. rewrite bind_Ret. apply div9_ok. lia.
Qed.

Lemma is_neg_ok d : -128 <= fd_intg d < 128 -> is_neg d = neg d.
Proof.
  intros H. unfold is_neg, neg. apply eqb_prop. revert H. generalize (fd_intg d).
  refine (sweep (fun z => eqb (negb (Z.land z (-128) =? 0)) (z <? 0)) (-128) 256 _).
  vm_compute. reflexivity.
Qed.
Lemma intg_ok d : intg d = int_digits d.
Proof. unfold intg, int_digits. change 127 with (Z.ones 7). rewrite Z.land_ones by lia. reflexivity. Qed.
Lemma lor_neg z : -128 <= z < 128 -> Z.lor z (-128) = z mod 128 - 128.
Proof.
  intros H. apply Z.eqb_eq. revert z H.
  refine (sweep (fun z => Z.lor z (-128) =? z mod 128 - 128) (-128) 256 _).
  vm_compute. reflexivity.
Qed.
Lemma land_pos z : Z.land z 127 = z mod 128.
Proof. change 127 with (Z.ones 7). rewrite Z.land_ones by lia. reflexivity. Qed.

Lemma int_digits_range d : 0 <= int_digits d < 128.
Proof. unfold int_digits. lia. Qed.

Lemma wf_counts d : wf d -> 0 <= int_digits d <= 81 /\ 0 <= frac_digits d <= 81 /\ 0 <= iu d <= 9 /\ 0 <= fu d <= 9 /\ iu d + fu d <= 9.
Proof.
  intros [Hl Hu Hi Hf Hfit]. unfold frac_digits. pose proof (int_digits_range d).
  unfold iu, fu, units_for, frac_digits in *. lia.
Qed.

Lemma intg_units_ok m d : wf d -> intg_units m d = Ret (iu d).
Proof. intros H. pose proof (wf_counts d H). unfold intg_units. rewrite intg_ok. apply get_units_ok. lia. Qed.
Lemma frac_units_ok m d : wf d -> frac_units m d = Ret (fu d).
Proof. intros H. pose proof (wf_counts d H). unfold frac_units, frac. apply get_units_ok. unfold frac_digits in *. lia. Qed.

Lemma wf_zlen d : wf d -> zlen (fd_lsu d) = 9.
Proof. intros []. unfold zlen. lia. Qed.
Lemma wf_uok d : wf d -> uok (fd_lsu d).
Proof. intros []. assumption. Qed.

Lemma magnitude_seg d : magnitude d = seg (fd_lsu d) 0 (Z.to_nat (iu d + fu d)).
Proof. apply units_value_seg. Qed.
Lemma magnitude_nonneg d : wf d -> 0 <= magnitude d.
Proof. intros H. rewrite magnitude_seg. apply seg_nonneg, wf_uok, H. Qed.
Lemma magnitude_bound d : wf d -> 0 <= magnitude d < base ^ (iu d + fu d).
Proof.
  intros H. rewrite magnitude_seg. pose proof (wf_counts d H).
  pose proof (seg_bound (fd_lsu d) 0 (Z.to_nat (iu d + fu d)) (wf_uok d H)).
  rewrite Z2Nat.id in * by lia. assumption.
Qed.

(** ** Values as integers: multiples of base^-9 *)

Definition amag (d : fd) : Z := magnitude d * base ^ (9 - fu d).
Definition num (d : fd) : Z := if neg d then - amag d else amag d.

Lemma amag_nonneg d : wf d -> 0 <= amag d.
Proof.
  intros H. pose proof (magnitude_nonneg d H). pose proof (wf_counts d H).
  pose proof (pow_base_pos (9 - fu d)). unfold amag. nia.
Qed.

Lemma base_pow_split a b : 0 <= a -> 0 <= b -> base ^ (a + b) = base ^ a * base ^ b.
Proof. intros. apply Z.pow_add_r; assumption. Qed.

Lemma value_num d : wf d -> (value d == num d # (Z.to_pos (base ^ 9)))%Q.
Proof.
  intros H. pose proof (wf_counts d H). unfold Qeq, value. cbn [Qnum Qden].
  rewrite !Z2Pos.id by (apply pow_base_pos; lia).
  replace (base ^ 9) with (base ^ (9 - fu d) * base ^ fu d) by (rewrite <- base_pow_split by lia; f_equal; lia).
  unfold num, amag. destruct (neg d); ring.
Qed.

Lemma value_eq a b : wf a -> wf b -> ((value a == value b)%Q <-> num a = num b).
Proof.
  intros Ha Hb. rewrite (value_num a Ha), (value_num b Hb). unfold Qeq. cbn [Qnum Qden].
  pose proof (pow_base_pos 9). nia.
Qed.
Lemma value_compare a b : wf a -> wf b -> Qcompare (value a) (value b) = Z.compare (num a) (num b).
Proof.
  intros Ha Hb. rewrite (Qcompare_comp _ _ (value_num a Ha) _ _ (value_num b Hb)).
  unfold Qcompare. cbn [Qnum Qden]. symmetry. apply Zmult_compare_compat_r. 
  apply Z.lt_gt. reflexivity.
Qed.
Lemma value_zero_iff d : wf d -> ((value d == 0)%Q <-> magnitude d = 0).
Proof.
  intros H. unfold Qeq, value. cbn [Qnum Qden]. destruct (neg d); lia.
Qed.

(** Segments with an integer length. *)
Definition sg (l : list Z) (i n : Z) : Z := seg l i (Z.to_nat n).

Lemma sg_app l i a b : 0 <= a -> 0 <= b -> sg l i (a + b) = sg l i a + base ^ a * sg l (i + a) b.
Proof.
  intros. unfold sg. replace (Z.to_nat (a + b)) with (Z.to_nat a + Z.to_nat b)%nat by lia.
  rewrite seg_app. rewrite Z2Nat.id by lia. reflexivity.
Qed.
Lemma sg_nil l i n : n <= 0 -> sg l i n = 0.
Proof. intros. unfold sg. replace (Z.to_nat n) with 0%nat by lia. reflexivity. Qed.
Lemma sg_1 l i : sg l i 1 = zn l i.
Proof. unfold sg. change (Z.to_nat 1) with 1%nat. cbn [seg]. lia. Qed.
Lemma sg_cons l i n : 0 <= n -> sg l i (1 + n) = zn l i + base * sg l (i + 1) n.
Proof. intros. rewrite sg_app, sg_1, Z.pow_1_r by lia. reflexivity. Qed.
Lemma sg_snoc l i n : 0 <= n -> sg l i (n + 1) = sg l i n + base ^ n * zn l (i + n).
Proof. intros. rewrite sg_app, sg_1 by lia. reflexivity. Qed.
Lemma sg_bound l i n : uok l -> 0 <= n -> 0 <= sg l i n < base ^ n.
Proof. intros. unfold sg. pose proof (seg_bound l i (Z.to_nat n) H). rewrite Z2Nat.id in * by lia. assumption. Qed.
Lemma sg_nonneg l i n : uok l -> 0 <= sg l i n.
Proof. intros. apply seg_nonneg. assumption. Qed.
Lemma sg_ext l l' i i' n : (forall k, 0 <= k < n -> zn l (i + k) = zn l' (i' + k)) -> sg l i n = sg l' i' n.
Proof. intros. apply seg_ext. intros. apply H. lia. Qed.
Lemma sg_0 l i n : (forall k, i <= k < i + n -> zn l k = 0) -> sg l i n = 0.
Proof. intros. apply seg_0. intros. apply H. lia. Qed.
Lemma sg_zero_inv l i n : uok l -> sg l i n = 0 -> forall k, i <= k < i + n -> zn l k = 0.
Proof. intros Hu H k Hk. apply (seg_zero_inv l i (Z.to_nat n) Hu H). lia. Qed.
Lemma sg_inj l l' i i' n : uok l -> uok l' -> sg l i n = sg l' i' n ->
  forall k, 0 <= k < n -> zn l (i + k) = zn l' (i' + k).
Proof. intros Hu Hu' H k Hk. apply (seg_inj l l' i i' (Z.to_nat n) Hu Hu' H). lia. Qed.
Lemma sg_upd_out l i n j v : 0 <= j < zlen l -> 0 <= i -> ~ (i <= j < i + n) ->
  sg (upd (Z.to_nat j) v l) i n = sg l i n.
Proof. intros. apply sg_ext. intros. apply zn_upd_ne; lia. Qed.
Lemma sg_of_seg l i n : seg l i n = sg l i (Z.of_nat n).
Proof. unfold sg. now rewrite Nat2Z.id. Qed.
Lemma magnitude_sg d : magnitude d = sg (fd_lsu d) 0 (iu d + fu d).
Proof. apply magnitude_seg. Qed.
