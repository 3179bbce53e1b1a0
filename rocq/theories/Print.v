(** * Formatting: the lemmas behind C08, C09, C12. *)
From Coq Require Import ZArith List Bool Lia QArith.
From Coq Require Import ZifyBool ZifyNat.
Import ListNotations.
From Verif Require Import Rust Tables Model_Base Model_Serde Spec Lib AddSub QLib RoundQ Model_Decimal Conv Digits.
Open Scope Z_scope.
Ltac Zify.zify_post_hook ::= Z.div_mod_to_equations.

(** ** The character table *)

Lemma zlen_bin2char : zlen BIN2CHAR = 4001.
Proof. vm_compute. reflexivity. Qed.

Fixpoint leqb (a b : list Z) : bool :=
  match a, b with
  | [], [] => true
  | x :: a, y :: b => (x =? y) && leqb a b
  | _, _ => false
  end.
Lemma leqb_eq a b : leqb a b = true -> a = b.
Proof.
  revert b; induction a as [|x a IH]; intros [|y b] H; cbn in H; try discriminate; [reflexivity|].
  apply andb_true_iff in H. destruct H as [H1 H2]. f_equal; [lia | apply IH, H2].
Qed.

Definition db (l : list Z) : list Z := map digit_byte l.
Lemma db_app a b : db (a ++ b) = db a ++ db b. Proof. apply map_app. Qed.

(** The table row by row. *)
Fixpoint rows (n : nat) (v : Z) (t : list Z) : bool :=
  match n with
  | O => true
  | S n' =>
      match t with
      | a :: b :: c :: d :: t' =>
          leqb [b; c; d] (db (dig 3 v)) && (a =? zlength (strip (dig 3 v))) && rows n' (v + 1) t'
      | _ => false
      end
  end.
Lemma rows_ok n v t : rows n v t = true -> forall k, 0 <= k < Z.of_nat n ->
  firstn 4 (skipn (Z.to_nat (k * 4)) t) = zlength (strip (dig 3 (v + k))) :: db (dig 3 (v + k)).
Proof.
  revert v t; induction n as [|n IH]; intros v t H k Hk; [lia|].
  cbn [rows] in H. destruct t as [|a [|b [|c [|d t']]]]; try discriminate.
  apply andb_true_iff in H. destruct H as [H H3]. apply andb_true_iff in H. destruct H as [H1 H2].
  apply leqb_eq in H1. destruct (Z.eq_dec k 0) as [->|Hne].
  - change (Z.to_nat (0 * 4)) with 0%nat. cbn [skipn firstn]. rewrite Z.add_0_r. rewrite <- H1. f_equal. lia.
  - replace (Z.to_nat (k * 4)) with (S (S (S (S (Z.to_nat ((k - 1) * 4)))))) by lia. cbn [skipn].
    rewrite (IH (v + 1) t' H3 (k - 1)) by lia. replace (v + 1 + (k - 1)) with (v + k) by lia. reflexivity.
Qed.
Lemma table v : 0 <= v <= 999 ->
  firstn 4 (skipn (Z.to_nat (v * 4)) BIN2CHAR) = zlength (strip (dig 3 v)) :: db (dig 3 v).
Proof.
  intros H. apply (rows_ok 1000 0 BIN2CHAR); [vm_compute; reflexivity | lia].
Qed.

Lemma skipn_skip A (l : list A) a k : skipn k (skipn a l) = skipn (a + k) l.
Proof.
  revert l; induction a as [|a IH]; intros l; [reflexivity|]. destruct l; cbn [skipn Nat.add]; [now rewrite skipn_nil | apply IH].
Qed.
Lemma skipn_sub A (l : list A) a k n j : (k + n <= j)%nat ->
  firstn n (skipn (a + k) l) = firstn n (skipn k (firstn j (skipn a l))).
Proof.
  intros H. rewrite skipn_firstn_comm, skipn_skip. rewrite firstn_firstn.
  replace (Nat.min n (j - k)) with n by lia. reflexivity.
Qed.

(** A slice of [n] digits after [k] digits of the row of [v]. *)
Lemma bin2char_slice v k n : 0 <= v <= 999 -> 0 <= k -> 0 <= n -> k + n <= 3 ->
  slice BIN2CHAR (v * 4 + 1 + k) (v * 4 + 1 + k + n) = Ret (db (firstn (Z.to_nat n) (skipn (Z.to_nat k) (dig 3 v)))).
Proof.
  intros Hv Hk Hn H. rewrite slice_ok by (rewrite ?zlen_bin2char; lia). f_equal.
  replace (Z.to_nat (v * 4 + 1 + k + n - (v * 4 + 1 + k))) with (Z.to_nat n) by lia.
  replace (Z.to_nat (v * 4 + 1 + k)) with (Z.to_nat (v * 4) + S (Z.to_nat k))%nat by lia.
  rewrite (skipn_sub _ _ _ _ _ 4) by lia. rewrite table by lia. cbn [skipn].
  unfold db. rewrite skipn_map, firstn_map. reflexivity.
Qed.
Lemma bin2char_get v : 0 <= v <= 999 -> get BIN2CHAR (v * 4) = Ret (zlength (strip (dig 3 v))).
Proof.
  intros Hv. rewrite get_ok by (rewrite zlen_bin2char; lia). f_equal. unfold zn.
  pose proof (table v Hv) as T. 
  assert (E : nth 0 (firstn 4 (skipn (Z.to_nat (v * 4)) BIN2CHAR)) 0 = zlength (strip (dig 3 v))) by (rewrite T; reflexivity).
  rewrite <- E. clear. generalize (Z.to_nat (v * 4)) as n, BIN2CHAR as l.
  induction n as [|n IH]; intros [|x l]; cbn [skipn nth]; try reflexivity. apply IH.
Qed.

(** ** Integral digits *)

(** What is printed of digits [ds]: everything, or without leading zeroes. *)
Definition pr (elim : bool) (ds : list Z) : list Z := if elim then strip ds else ds.
Definition still (elim : bool) (ds : list Z) : bool := elim && match strip ds with [] => true | _ => false end.

Lemma pr_app e a b : pr e (a ++ b) = pr e a ++ pr (still e a) b.
Proof.
  unfold pr, still. destruct e; cbn [andb]; [|reflexivity]. rewrite strip_app. destruct (strip a); reflexivity.
Qed.
Lemma still_app e a b : still e (a ++ b) = still (still e a) b.
Proof.
  unfold still. destruct e; cbn [andb]; [|reflexivity]. rewrite strip_app. destruct (strip a); reflexivity.
Qed.

Lemma strip_skipn l : strip l = skipn (length l - length (strip l)) l.
Proof.
  induction l as [|x l IH]; [reflexivity|]. cbn [strip]. destruct (x =? 0) eqn:E.
  - pose proof (strip_len l). cbn [length]. replace (S (length l) - length (strip l))%nat with (S (length l - length (strip l))) by lia.
    cbn [skipn]. exact IH.
  - replace (length (x :: l) - length (x :: l))%nat with 0%nat by lia. reflexivity.
Qed.

Lemma d3_ok v buf e : 0 <= v <= 999 ->
  d3_to_str v buf e = Ret (buf ++ db (pr e (dig 3 v)), still e (dig 3 v)).
Proof.
  intros Hv. unfold d3_to_str, pr, still. destruct e; cbn [negb andb].
  - rewrite bin2char_get by lia. mret. set (s := strip (dig 3 v)).
    pose proof (strip_len (dig 3 v)) as L. rewrite dig_length in L. fold s in L.
    destruct (zlength s >? 0) eqn:E.
    + replace (v * 4 + 4 - zlength s) with (v * 4 + 1 + (3 - zlength s)) by lia.
      unfold zlength in *. rewrite bin2char_slice by lia. mret. f_equal. f_equal.
      * f_equal. f_equal. subst s. rewrite (strip_skipn (dig 3 v)) at 3. rewrite dig_length.
        replace (Z.to_nat (3 - Z.of_nat (length (strip (dig 3 v))))) with (3 - length (strip (dig 3 v)))%nat by lia.
        apply firstn_all2. rewrite skipn_length, dig_length. lia.
      * destruct s; [cbn in E; lia | reflexivity].
    + unfold zlength in E. destruct s; [|cbn in E; lia]. cbn. rewrite app_nil_r. reflexivity.
  - replace (v * 4 + 4) with (v * 4 + 1 + 0 + 3) by lia. replace (v * 4 + 1) with (v * 4 + 1 + 0) at 1 by lia.
    rewrite bin2char_slice by lia. mret. change (Z.to_nat 0) with 0%nat. cbn [skipn].
    rewrite firstn_all2; [reflexivity|]. rewrite dig_length. lia.
Qed.

(** The three groups of a unit. *)
Lemma dig9 u : dig 9 u = dig 3 (u / 1000000) ++ dig 3 (u / 1000) ++ dig 3 u.
Proof.
  change 9%nat with (3 + (3 + 3))%nat. rewrite !dig_split.
  reflexivity.
Qed.
Lemma dig3_mod x k : dig 3 (x + 1000 * k) = dig 3 x.
Proof. rewrite Z.mul_comm. apply (dig_shift 3). Qed.

Lemma intg_unit_ok m u buf e : 0 <= u < base ->
  intg_unit m u buf e = Ret (buf ++ db (pr e (dig 9 u)), still e (dig 9 u)).
Proof.
  intros Hu. unfold base in Hu. rewrite dig9.
  assert (E1 : dig 3 (u / 1000) = dig 3 ((u mod 1000000) / 1000)).
  { rewrite <- (dig3_mod ((u mod 1000000) / 1000) (u / 1000000)). f_equal. lia. }
  assert (E2 : dig 3 u = dig 3 (u mod 1000)).
  { rewrite <- (dig3_mod (u mod 1000) (u / 1000)). f_equal. lia. }
  rewrite E1, E2. unfold intg_unit, BIN_HIGH_UNIT, BIN_MID_UNIT.
  rewrite !pr_app, !still_app, !db_app.
  assert (H1 : (if u >=? 1000000
       then
        high <- i32_div m u 1000000;;
        ' (buf0, elim) <- d3_to_str high buf e;;
        t <- i32 m (high * 1000000);; u0 <- i32 m (u - t);; Ret (buf0, elim, u0)
       else ' (buf0, elim) <- d3_to_str 0 buf e;; Ret (buf0, elim, u)) =
       Ret (buf ++ db (pr e (dig 3 (u / 1000000))), still e (dig 3 (u / 1000000)), u mod 1000000)).
  { destruct (u >=? 1000000) eqn:H.
    - rewrite i32_div_ok by lia. mret. rewrite d3_ok by lia. mret. rewrite i32_ok by lia. mret. rewrite i32_ok by lia. mret.
      f_equal. f_equal. lia.
    - rewrite d3_ok by lia. mret. replace (u / 1000000) with 0 by lia. f_equal. f_equal. lia. }
  rewrite H1. mret. set (v := u mod 1000000). set (e1 := still e _). set (b1 := buf ++ _).
  assert (Hv : 0 <= v < 1000000) by (subst v; lia).
  assert (H2 : (if v >=? 1000
       then
        mid <- i32_div m v 1000;;
        ' (buf0, elim) <- d3_to_str mid b1 e1;;
        t <- i32 m (mid * 1000);; u0 <- i32 m (v - t);; Ret (buf0, elim, u0)
       else ' (buf0, elim) <- d3_to_str 0 b1 e1;; Ret (buf0, elim, v)) =
       Ret (b1 ++ db (pr e1 (dig 3 (v / 1000))), still e1 (dig 3 (v / 1000)), v mod 1000)).
  { destruct (v >=? 1000) eqn:H.
    - rewrite i32_div_ok by lia. mret. rewrite d3_ok by lia. mret. rewrite i32_ok by lia. mret. rewrite i32_ok by lia. mret.
      f_equal. f_equal. lia.
    - rewrite d3_ok by lia. mret. replace (v / 1000) with 0 by lia. f_equal. f_equal. lia. }
  rewrite H2. mret. rewrite d3_ok by lia.
  replace (v mod 1000) with (u mod 1000) by (subst v; lia). subst b1. rewrite <- !app_assoc. reflexivity.
Qed.

(** The digits of the units [i .. i+n-1] are those of their value. *)
Lemma pow_9 n : 10 ^ Z.of_nat (9 * n) = base ^ Z.of_nat n.
Proof. rewrite Nat2Z.inj_mul. change (Z.of_nat 9) with 9. rewrite Z.pow_mul_r by lia. reflexivity. Qed.

Lemma dig_seg l i n : uok l -> dig (9 * S n) (seg l i (S n)) = dig 9 (zn l (i + Z.of_nat n)) ++ dig (9 * n) (seg l i n).
Proof.
  intros U. replace (9 * S n)%nat with (9 + 9 * n)%nat by lia. rewrite dig_split, pow_9, seg_snoc.
  pose proof (seg_bound l i n U). pose proof (pow_base_pos (Z.of_nat n)).
  rewrite (Z.mul_comm (base ^ _)), Z.div_add by lia. rewrite Z.div_small by lia. rewrite Z.add_0_l.
  f_equal. rewrite <- pow_9. apply dig_shift.
Qed.

Lemma append_intg_ok m n l up buf e : uok l -> 0 <= up - Z.of_nat n + 1 -> up < zlen l ->
  append_intg m n l up buf e =
  Ret (buf ++ db (pr e (dig (9 * n) (seg l (up - Z.of_nat n + 1) n))), still e (dig (9 * n) (seg l (up - Z.of_nat n + 1) n))).
Proof.
  intros U. revert up buf e. induction n as [|n IH]; intros up buf e H1 H2.
  - cbn. destruct e; cbn; rewrite app_nil_r; reflexivity.
  - cbn [append_intg]. rewrite get_ok by lia. mret. rewrite dig_seg by exact U.
    replace (up - Z.of_nat (S n) + 1 + Z.of_nat n) with up by lia.
    rewrite pr_app, still_app, db_app, app_assoc.
    replace (up - Z.of_nat (S n) + 1) with (up - 1 - Z.of_nat n + 1) by lia.
    pose proof (uok_zn l up U). destruct (e && (zn l up =? 0)) eqn:E.
    + apply andb_true_iff in E. destruct E as [-> E]. replace (zn l up) with 0 by lia.
      change (still true (dig 9 0)) with true. change (db (pr true (dig 9 0))) with (@nil Z). rewrite app_nil_r.
      apply IH; lia.
    + rewrite intg_unit_ok by assumption. mret. apply IH; lia.
Qed.

(** ** Fractional digits *)

Lemma db_repeat0 n : db (repeat 0 n) = repeat c0 n.
Proof. induction n as [|n IH]; [reflexivity|]. cbn. now f_equal. Qed.
Lemma push_zeroes_db buf k : 0 <= k -> push_zeroes buf k = buf ++ db (repeat 0 (Z.to_nat k)).
Proof. intros H. unfold push_zeroes. now rewrite db_repeat0. Qed.

Lemma frac_group_ok m dv u f buf : dv = 1000000 \/ dv = 1000 -> 0 <= u < dv * 1000 -> 0 < f <= 127 ->
  exists b, frac_group m dv u f buf =
    Ret (buf ++ db (firstn (Z.to_nat f) (dig 3 (u / dv))), (if f <? 3 then f else f - 3), b, f <=? 3) /\ (3 < f -> b = u mod dv).
Proof.
  intros Hdv Hu Hf. unfold frac_group.
  assert (Hq : 0 <= u / dv <= 999) by (destruct Hdv; subst dv; lia).
  destruct (u >=? dv) eqn:E.
  - rewrite i32_div_ok by (destruct Hdv; subst; lia). mret. destruct (f <? 3) eqn:E3.
    + exists u. replace (u / dv * 4 + 1) with (u / dv * 4 + 1 + 0) by lia. rewrite bin2char_slice by lia. mret.
      change (Z.to_nat 0) with 0%nat. cbn [skipn]. split; [|lia]. f_equal. f_equal; lia.
    + replace (u / dv * 4 + 1) with (u / dv * 4 + 1 + 0) by lia. rewrite bin2char_slice by lia. mret.
      change (Z.to_nat 0) with 0%nat. cbn [skipn]. rewrite i8_ok by lia. mret.
      rewrite (firstn_all2 (n := Z.to_nat 3)) by (rewrite dig_length; lia).
      rewrite (firstn_all2 (n := Z.to_nat f)) by (rewrite dig_length; lia).
      destruct (f - 3 =? 0) eqn:E0.
      * exists u. split; [f_equal; f_equal; lia | lia].
      * exists (u mod dv). rewrite i32_ok by (destruct Hdv; subst; lia). mret. rewrite i32_ok by (destruct Hdv; subst; lia). mret.
        split; [|lia]. f_equal. f_equal; [|lia]. f_equal. destruct Hdv; subst; lia.
  - assert (E0 : u / dv = 0) by (destruct Hdv; subst; lia). rewrite E0. exists u.
    assert (Em : u mod dv = u) by (destruct Hdv; subst; lia). rewrite Em. split; [|reflexivity].
    destruct (f <? 3) eqn:E3.
    + rewrite push_zeroes_db by lia. rewrite dig_0. f_equal. f_equal; [|lia]. f_equal. f_equal. f_equal. f_equal.
      assert (Hc : f = 1 \/ f = 2) by lia. destruct Hc; subst f; reflexivity.
    + rewrite i8_ok by lia. mret. rewrite firstn_all2 by (rewrite dig_length; lia).
      f_equal. f_equal. lia.
Qed.

Lemma append_frac_ok m n l buf f : uok l -> Z.of_nat n <= zlen l -> 0 <= f <= 9 * Z.of_nat n -> f <= 127 ->
  append_frac m n l buf f = Ret (buf ++ db (firstn (Z.to_nat f) (dig (9 * n) (seg l 0 n)))).
Proof.
  intros U. revert buf f. induction n as [|n IH]; intros buf f Hn Hf Hf'.
  - replace f with 0 by lia. cbn. now rewrite app_nil_r.
  - cbn [append_frac]. destruct (f =? 0) eqn:E0.
    { replace f with 0 by lia. change (Z.to_nat 0) with 0%nat. cbn [firstn db map]. now rewrite app_nil_r. }
    rewrite get_ok by lia. mret. rewrite dig_seg by exact U. cbn [Z.add].
    change (0 + Z.of_nat n) with (Z.of_nat n).
    pose proof (uok_zn l (Z.of_nat n) U) as Hu. set (u := zn l (Z.of_nat n)) in *. clearbody u.
    rewrite firstn_app, dig_length, db_app, app_assoc.
    destruct (u =? 0) eqn:Eu.
    + replace u with 0 by lia. rewrite dig_0. unfold DIGITS_PER_UNIT. destruct (f >? 9) eqn:E9.
      * rewrite i8_ok by lia. mret. rewrite IH by lia. f_equal. f_equal; [f_equal|f_equal; f_equal; lia].
        rewrite firstn_all2 by (rewrite repeat_length; lia). reflexivity.
      * rewrite push_zeroes_db by lia. replace (Z.to_nat f - 9)%nat with 0%nat by lia. cbn [firstn db map].
        rewrite app_nil_r. f_equal. f_equal. f_equal.
        assert (K : forall a b, (a <= b)%nat -> firstn a (repeat 0 b) = repeat 0 a).
        { induction a as [|a IHa]; intros [|b] Hab; try reflexivity; try lia. cbn. f_equal. apply IHa. lia. }
        rewrite K by lia. reflexivity.
    + unfold base in Hu. rewrite dig9.
      destruct (frac_group_ok m BIN_HIGH_UNIT u f buf) as (b1 & -> & Hb1); [left; reflexivity | unfold BIN_HIGH_UNIT; lia | lia |].
      mret. unfold BIN_HIGH_UNIT in *. destruct (f <=? 3) eqn:F3.
      { f_equal. replace (Z.to_nat f - 9)%nat with 0%nat by lia. cbn [firstn db map]. rewrite app_nil_r.
        f_equal. f_equal. rewrite firstn_app, dig_length. replace (Z.to_nat f - 3)%nat with 0%nat by lia.
        cbn [firstn]. now rewrite app_nil_r. }
      rewrite Hb1 by lia. replace (f <? 3) with false by lia.
      destruct (frac_group_ok m BIN_MID_UNIT (u mod 1000000) (f - 3) (buf ++ db (firstn (Z.to_nat f) (dig 3 (u / 1000000))))) as (b2 & -> & Hb2);
        [right; reflexivity | unfold BIN_MID_UNIT; lia | lia |].
      mret. unfold BIN_MID_UNIT in *.
      assert (D2 : dig 3 (u mod 1000000 / 1000) = dig 3 (u / 1000)).
      { rewrite <- (dig3_mod (u mod 1000000 / 1000) (u / 1000000)). f_equal. lia. }
      assert (D3 : dig 3 (u mod 1000) = dig 3 u).
      { rewrite <- (dig3_mod (u mod 1000) (u / 1000)). f_equal. lia. }
      rewrite D2. rewrite (firstn_app (Z.to_nat f) (dig 3 (u / 1000000))), dig_length.
      rewrite (firstn_all2 (n := Z.to_nat f) (dig 3 (u / 1000000))) by (rewrite dig_length; lia).
      rewrite (firstn_app _ (dig 3 (u / 1000))), dig_length.
      replace (Z.to_nat (f - 3)) with (Z.to_nat f - 3)%nat by lia.
      destruct (f - 3 <=? 3) eqn:F6.
      { replace (Z.to_nat f - 9)%nat with 0%nat by lia. replace (Z.to_nat f - 3 - 3)%nat with 0%nat by lia.
        cbn [firstn db map]. rewrite !app_nil_r. rewrite db_app, app_assoc. reflexivity. }
      rewrite Hb2 by lia. replace (f - 3 <? 3) with false by lia.
      replace (u mod 1000000 mod 1000) with (u mod 1000) by lia.
      rewrite (firstn_all2 (dig 3 (u / 1000))) by (rewrite dig_length; lia).
      destruct (f - 3 - 3 <? 3) eqn:F9.
      { replace (u mod 1000 * 4 + 1) with (u mod 1000 * 4 + 1 + 0) by lia. rewrite bin2char_slice by lia. mret.
        change (Z.to_nat 0) with 0%nat. cbn [skipn]. rewrite D3.
        replace (Z.to_nat f - 9)%nat with 0%nat by lia. cbn [firstn db map]. rewrite app_nil_r.
        replace (Z.to_nat (f - 3 - 3)) with (Z.to_nat f - 3 - 3)%nat by lia.
        rewrite !db_app, !app_assoc. reflexivity. }
      replace (u mod 1000 * 4 + 1) with (u mod 1000 * 4 + 1 + 0) by lia. rewrite bin2char_slice by lia. mret.
      change (Z.to_nat 0) with 0%nat. cbn [skipn]. rewrite D3.
      rewrite (firstn_all2 (n := Z.to_nat 3)) by (rewrite dig_length; lia).
      rewrite (firstn_all2 (n := (Z.to_nat f - 3 - 3)%nat)) by (rewrite dig_length; lia).
      rewrite i8_ok by lia. mret. rewrite !db_app, !app_assoc.
      destruct (f - 3 - 3 - 3 =? 0) eqn:FZ.
      * replace (Z.to_nat f - 9)%nat with 0%nat by lia. cbn [firstn db map]. rewrite app_nil_r. reflexivity.
      * rewrite IH by lia. replace (Z.to_nat (f - 3 - 3 - 3)) with (Z.to_nat f - 9)%nat by lia. reflexivity.
Qed.

(** ** The whole string *)

(** The magnitude in units of 10^-f, truncated. *)
Definition mant (d : fd) (f : Z) : Z :=
  if f <=? 9 * fu d then magnitude d / 10 ^ (9 * fu d - f) else magnitude d * 10 ^ (f - 9 * fu d).

(** Integral digits of a number below 10^w: at least one digit. *)
Definition int_numeral (w : nat) (n : Z) : list Z := match strip (dig w n) with [] => [0] | s => s end.

Definition printed (d : fd) (f : Z) : numeral :=
  mknum (if neg d then Some true else None) (int_numeral (9 * Z.to_nat (iu d)) (mant d f / 10 ^ f))
        (0 <? f) (dig (Z.to_nat f) (mant d f)) None.

Lemma pow_base n : 0 <= n -> 10 ^ (9 * n) = base ^ n.
Proof. intros H. rewrite Z.pow_mul_r by lia. reflexivity. Qed.
Lemma pow_split a b : 0 <= a -> 0 <= b -> 10 ^ (a + b) = 10 ^ a * 10 ^ b.
Proof. intros. apply Z.pow_add_r; assumption. Qed.

Lemma mant_nonneg d f : wf d -> 0 <= mant d f.
Proof.
  intros W. pose proof (magnitude_nonneg d W). unfold mant. destruct (f <=? 9 * fu d) eqn:E.
  - apply Z.div_pos; [assumption | apply p10_pos; lia].
  - pose proof (p10_pos (f - 9 * fu d)). nia.
Qed.
(** The integral part does not depend on [f]. *)
Lemma mant_int d f : wf d -> 0 <= f -> mant d f / 10 ^ f = sg (fd_lsu d) (fu d) (iu d).
Proof.
  intros W Hf. pose proof (wf_counts d W) as C.
  assert (EM : magnitude d = sg (fd_lsu d) 0 (fu d) + base ^ fu d * sg (fd_lsu d) (fu d) (iu d)).
  { rewrite magnitude_sg, Z.add_comm, sg_app by lia. reflexivity. }
  pose proof (sg_bound (fd_lsu d) 0 (fu d) (wf_uok d W) ltac:(lia)) as B. pose proof (pow_base_pos (fu d)) as P.
  assert (E : magnitude d / base ^ fu d = sg (fd_lsu d) (fu d) (iu d)).
  { rewrite EM. rewrite (Z.mul_comm (base ^ fu d)), Z.div_add by lia. rewrite Z.div_small by lia. lia. }
  rewrite <- E. unfold mant. pose proof (p10_pos f Hf). destruct (f <=? 9 * fu d) eqn:L.
  - pose proof (p10_pos (9 * fu d - f) ltac:(lia)). rewrite Z.div_div by lia. rewrite <- pow_split by lia. replace (9 * fu d - f + f) with (9 * fu d) by lia.
    rewrite pow_base by lia. reflexivity.
  - replace (10 ^ f) with (10 ^ (9 * fu d) * 10 ^ (f - 9 * fu d)) by (rewrite <- pow_split by lia; f_equal; lia).
    rewrite pow_base by lia. pose proof (p10_pos (f - 9 * fu d)). apply Z.div_mul_cancel_r; lia.
Qed.

(** The digits [append_frac] prints, followed by padding. *)
Lemma mant_frac_short d f : wf d -> 0 <= f <= 9 * fu d ->
  firstn (Z.to_nat f) (dig (9 * Z.to_nat (fu d)) (sg (fd_lsu d) 0 (fu d))) = dig (Z.to_nat f) (mant d f).
Proof.
  intros W Hf. pose proof (wf_counts d W) as C. rewrite dig_firstn by lia. unfold mant. replace (f <=? 9 * fu d) with true by lia.
  replace (Z.of_nat (9 * Z.to_nat (fu d) - Z.to_nat f)) with (9 * fu d - f) by lia.
  pose proof (p10_pos (9 * fu d - f) ltac:(lia)) as P.
  rewrite magnitude_sg, Z.add_comm, (sg_app _ 0) by lia.
  assert (E : base ^ fu d = 10 ^ f * 10 ^ (9 * fu d - f)) by (rewrite <- pow_split, <- pow_base by lia; f_equal; lia).
  rewrite E. rewrite <- (Z2Nat.id f) at 4 by lia.
  replace (10 ^ Z.of_nat (Z.to_nat f) * 10 ^ (9 * fu d - f) * sg (fd_lsu d) (0 + fu d) (iu d))
    with (sg (fd_lsu d) (0 + fu d) (iu d) * 10 ^ Z.of_nat (Z.to_nat f) * 10 ^ (9 * fu d - f)) by ring.
  rewrite Z.div_add by lia. symmetry. apply dig_shift.
Qed.
Lemma mant_frac_long d f : wf d -> 9 * fu d <= f ->
  dig (9 * Z.to_nat (fu d)) (sg (fd_lsu d) 0 (fu d)) ++ repeat 0 (Z.to_nat (f - 9 * fu d)) = dig (Z.to_nat f) (mant d f).
Proof.
  intros W Hf. pose proof (wf_counts d W) as C.
  assert (E : mant d f = magnitude d * 10 ^ (f - 9 * fu d)).
  { unfold mant. destruct (f <=? 9 * fu d) eqn:L; [|reflexivity]. replace f with (9 * fu d) by lia.
    rewrite Z.sub_diag. rewrite Z.pow_0_r, Z.div_1_r. lia. }
  rewrite E. replace (Z.to_nat f) with (9 * Z.to_nat (fu d) + Z.to_nat (f - 9 * fu d))%nat by lia. rewrite dig_split.
  rewrite Z2Nat.id by lia. pose proof (p10_pos (f - 9 * fu d)). rewrite Z.div_mul by lia. f_equal.
  - rewrite magnitude_sg, Z.add_comm, (sg_app _ 0) by lia.
    replace (base ^ fu d * sg (fd_lsu d) (0 + fu d) (iu d)) with (sg (fd_lsu d) (0 + fu d) (iu d) * 10 ^ Z.of_nat (9 * Z.to_nat (fu d))).
    + symmetry. apply dig_shift.
    + rewrite pow_9, Z2Nat.id by lia. ring.
  - pose proof (dig_shift (Z.to_nat (f - 9 * fu d)) (magnitude d) 0) as S. rewrite Z2Nat.id, Z.add_0_l in S by lia.
    rewrite S. symmetry. apply dig_0.
Qed.

Lemma append_str_ok m d buf f : wf d ->
  append_str_buf m d buf f = Ret (buf ++ numeral_bytes (printed d (if f <? 0 then frac_digits d else f))).
Proof.
  intros W. pose proof (wf_counts d W) as C. pose proof (wf_zlen d W) as L. pose proof (wf_uok d W) as U.
  unfold append_str_buf. rewrite is_neg_ok by apply (wf_intg d W).
  rewrite intg_units_ok, frac_units_ok by exact W. mret. mret.
  set (b0 := if neg d then buf ++ [cminus] else buf).
  assert (E0 : b0 = buf ++ sign_bytes (if neg d then Some true else None)).
  { subst b0. destruct (neg d); cbn; [reflexivity | now rewrite app_nil_r]. }
  set (ip := sg (fd_lsu d) (fu d) (iu d)).
  assert (EI : (if iu d >? 0
     then
      ' (buf0, elim) <- append_intg m (Z.to_nat (iu d)) (fd_lsu d) (iu d + fu d - 1) b0 true;;
      Ret (if elim : bool then buf0 ++ [c0] else buf0)
     else Ret (b0 ++ [c0])) = Ret (b0 ++ db (int_numeral (9 * Z.to_nat (iu d)) ip))).
  { destruct (iu d >? 0) eqn:Ei.
    - rewrite append_intg_ok by (try exact U; lia). mret.
      replace (iu d + fu d - 1 - Z.of_nat (Z.to_nat (iu d)) + 1) with (fu d) by lia. fold (sg (fd_lsu d) (fu d) (iu d)). fold ip.
      unfold int_numeral, still, pr. cbn [andb]. destruct (strip (dig (9 * Z.to_nat (iu d)) ip)); [|reflexivity].
      cbn [db map]. rewrite app_nil_r. reflexivity.
    - replace (iu d) with 0 by lia. reflexivity. }
  rewrite EI. mret. set (b1 := b0 ++ _).
  set (fp := sg (fd_lsu d) 0 (fu d)).
  assert (EB : forall F, 0 <= F -> buf ++ numeral_bytes (printed d F) = b1 ++ (if 0 <? F then [46] else []) ++ db (dig (Z.to_nat F) (mant d F))).
  { intros F HF. subst b1. rewrite E0. unfold numeral_bytes, printed. cbn [n_sign n_int n_point n_frac n_exp].
    rewrite mant_int by (try exact W; lia). fold ip. unfold db. rewrite <- !app_assoc, ?app_nil_r. reflexivity. }
  assert (Z0 : forall F, 0 <= F <= 9 * fu d -> append_frac m (Z.to_nat (fu d)) (fd_lsu d) (b1 ++ [cdot]) F =
     Ret ((b1 ++ [cdot]) ++ db (dig (Z.to_nat F) (mant d F)))).
  { intros F HF. rewrite append_frac_ok by (try exact U; lia). fold (sg (fd_lsu d) 0 (fu d)).
    rewrite mant_frac_short by (try exact W; lia). reflexivity. }
  pose proof (frac_le_fu d W) as FL.
  destruct (f =? 0) eqn:F0.
  - replace f with 0 by lia. change (0 <? 0) with false. cbv iota. rewrite EB by lia. cbn. now rewrite app_nil_r.
  - destruct (f <? 0) eqn:Fn.
    + destruct (fu d >? 0) eqn:Fu.
      * change (fd_frac d) with (frac_digits d). rewrite Z0 by lia. rewrite EB by lia.
        replace (0 <? frac_digits d) with true by (unfold fu, units_for in *; lia). rewrite <- app_assoc. reflexivity.
      * replace (frac_digits d) with 0 by lia. rewrite EB by lia. cbn. now rewrite app_nil_r.
    + rewrite EB by lia. replace (0 <? f) with true by lia. unfold DIGITS_PER_UNIT. destruct (fu d =? 0) eqn:Fu.
      * rewrite push_zeroes_db by lia. rewrite <- mant_frac_long by (try exact W; lia).
        replace (fu d) with 0 by lia. change (9 * Z.to_nat 0)%nat with 0%nat. cbn [dig app].
        replace (f - 9 * 0) with f by lia. rewrite <- app_assoc. reflexivity.
      * destruct (f <=? fu d * 9) eqn:Ff.
        -- rewrite as_i8_id by lia. rewrite Z0 by lia. rewrite <- app_assoc. reflexivity.
        -- rewrite as_i8_id by lia. rewrite append_frac_ok by (try exact U; lia). mret.
           rewrite push_zeroes_db by lia. rewrite <- mant_frac_long by (try exact W; lia). rewrite db_app.
           rewrite firstn_all2 by (rewrite dig_length; lia). rewrite <- !app_assoc. cbn [app].
           replace (f - fu d * 9) with (f - 9 * fu d) by lia. reflexivity.
Qed.

(** The printed numeral is canonical and denotes the truncated value. *)
Lemma printed_canonical d f : wf d -> 0 <= f -> canonical (printed d f).
Proof.
  intros W Hf. unfold canonical, printed, numeral_ok, int_numeral. cbn [n_sign n_int n_point n_frac n_exp].
  set (s := dig (9 * Z.to_nat (iu d)) _).
  assert (Hs : Forall is_digit (match strip s with [] => [0] | x :: t => x :: t end)).
  { pose proof (strip_ok s (dig_ok _ _)). destruct (strip s); [constructor; [unfold is_digit; lia | constructor] | assumption]. }
  assert (Hn : match strip s with [] => [0] | x :: t => x :: t end <> []) by (destruct (strip s); discriminate).
  repeat split; try assumption.
  - apply dig_ok.
  - destruct (match strip s with [] => _ | _ => _ end); [contradiction | discriminate].
  - intros H. replace (Z.to_nat f) with 0%nat by lia. reflexivity.
  - destruct (neg d); discriminate.
  - pose proof (strip_hd s) as Hh. destruct (strip s); [reflexivity|]. intros E. now apply Hh in E.
  - intros H E. apply (f_equal (@length Z)) in E. rewrite dig_length in E. cbn in E. lia.
  - intros H. destruct (Z.to_nat f) eqn:E; [now contradiction H|]. lia.
Qed.

Lemma printed_frac d f : 0 <= f -> zlength (n_frac (printed d f)) = f.
Proof. intros H. unfold zlength, printed. cbn. rewrite dig_length. lia. Qed.
Lemma printed_sign d f : is_minus (n_sign (printed d f)) = neg d.
Proof. unfold printed. cbn. destruct (neg d); reflexivity. Qed.

Lemma printed_digits d f : wf d -> 0 <= f ->
  digits_value (n_int (printed d f) ++ n_frac (printed d f)) = mant d f.
Proof.
  intros W Hf. rewrite digits_value_app, printed_frac by assumption. unfold printed. cbn [n_int n_frac].
  rewrite dig_value, Z2Nat.id by lia. rewrite mant_int by assumption.
  assert (E : digits_value (int_numeral (9 * Z.to_nat (iu d)) (sg (fd_lsu d) (fu d) (iu d))) = mant d f / 10 ^ f).
  { rewrite mant_int by assumption. unfold int_numeral. set (s := dig _ _). 
    assert (digits_value (match strip s with [] => [0] | x :: t => x :: t end) = digits_value s) as ->.
    { rewrite <- (strip_value s). destruct (strip s); reflexivity. }
    subst s. rewrite dig_value, pow_9, Z2Nat.id by apply (wf_counts d W). apply Z.mod_small.
    apply sg_bound; [apply wf_uok, W | apply (wf_counts d W)]. }
  rewrite E. pose proof (p10_pos f Hf). rewrite Z.mul_comm. symmetry. apply Z.div_mod. lia.
Qed.

Lemma truncate_at_mant d f : wf d -> 0 <= f ->
  (truncate_at (value d) f == inject_Z (sgn (neg d) (mant d f)) * pow10 (- f))%Q.
Proof.
  intros W Hf. unfold mant. destruct (f <=? 9 * fu d) eqn:E.
  - rewrite truncate_at_value by (try exact W; lia). unfold sgn. reflexivity.
  - assert (V : (value d == inject_Z (sgn (neg d) (magnitude d * 10 ^ (f - 9 * fu d))) * pow10 (- f))%Q).
    { rewrite (value_smag d W). unfold smag, sgn.
      assert (Es : (if neg d then - (magnitude d * 10 ^ (f - 9 * fu d)) else magnitude d * 10 ^ (f - 9 * fu d)) = (if neg d then - magnitude d else magnitude d) * 10 ^ (f - 9 * fu d)) by (destruct (neg d); ring).
      rewrite Es, inject_Z_mult, <- pow10_nonneg by lia. rewrite <- Qmult_assoc, <- pow10_add.
      replace (f - 9 * fu d + - f) with (- (9 * fu d)) by lia. reflexivity. }
    rewrite <- V. apply (truncate_at_multiple _ _ _ V).
Qed.

Lemma printed_value d f : wf d -> 0 <= f -> (numeral_value (printed d f) == truncate_at (value d) f)%Q.
Proof.
  intros W Hf. rewrite truncate_at_mant by assumption. unfold numeral_value. rewrite printed_digits, printed_frac, printed_sign by assumption.
  unfold numeral_exp. cbn [n_exp printed]. change (0 - f) with (- f). unfold sgn.
  destruct (neg d); [rewrite inject_Z_opp|]; reflexivity.
Qed.

Lemma to_string_ok m d f : wf d -> exists n, to_string m d f = Ret (numeral_bytes n) /\ canonical n /\
  is_minus (n_sign n) = neg d /\ zlength (n_frac n) = (if f <? 0 then frac_digits d else f) /\
  (numeral_value n == truncate_at (value d) (if f <? 0 then frac_digits d else f))%Q.
Proof.
  intros W. set (F := if f <? 0 then frac_digits d else f).
  assert (HF : 0 <= F) by (pose proof (wf_counts d W); subst F; destruct (f <? 0) eqn:E; lia).
  exists (printed d F). split; [unfold to_string; rewrite append_str_ok by exact W; reflexivity|].
  split; [apply printed_canonical; assumption|]. split; [apply printed_sign|].
  split; [apply printed_frac; exact HF|]. apply printed_value; assumption.
Qed.

(** ** Canonical numerals are unique *)

Lemma lead_bound x l : is_digit x -> x <> 0 -> Forall is_digit l ->
  10 ^ zlength l <= digits_value (x :: l) < 10 ^ (zlength l + 1).
Proof.
  intros Hx H0 Hl. rewrite digits_value_cons. pose proof (digits_value_bound l Hl) as B.
  unfold is_digit in Hx. rewrite Z.pow_add_r by (unfold zlength; lia). nia.
Qed.
Lemma pow10_mono_inv a b : 0 <= b -> 10 ^ a < 10 ^ b -> a < b.
Proof. intros Hb H. apply (Z.pow_lt_mono_r_iff 10); lia. Qed.

Lemma stripped_unique l l' : Forall is_digit l -> Forall is_digit l' -> l <> [] -> l' <> [] ->
  (hd 1 l = 0 -> l = [0]) -> (hd 1 l' = 0 -> l' = [0]) -> digits_value l = digits_value l' -> l = l'.
Proof.
  intros Hl Hl' Nl Nl' Sl Sl' E.
  destruct l as [|x l]; [contradiction|]. destruct l' as [|y l']; [contradiction|]. cbn [hd] in *.
  inversion Hl; inversion Hl'; subst.
  destruct (Z.eq_dec x 0) as [->|Nx]; destruct (Z.eq_dec y 0) as [->|Ny].
  - rewrite Sl, Sl' by reflexivity. reflexivity.
  - rewrite Sl in E by reflexivity. pose proof (lead_bound y l' ltac:(assumption) Ny ltac:(assumption)) as B.
    pose proof (p10_pos (zlength l') ltac:(unfold zlength; lia)). rewrite <- E in B. unfold digits_value in B. cbn in B. lia.
  - rewrite Sl' in E by reflexivity. pose proof (lead_bound x l ltac:(assumption) Nx ltac:(assumption)) as B.
    pose proof (p10_pos (zlength l) ltac:(unfold zlength; lia)). rewrite E in B. unfold digits_value in B. cbn in B. lia.
  - pose proof (lead_bound x l ltac:(assumption) Nx ltac:(assumption)) as B1.
    pose proof (lead_bound y l' ltac:(assumption) Ny ltac:(assumption)) as B2.
    assert (zlength l < zlength l' + 1) by (apply pow10_mono_inv; [unfold zlength|]; lia).
    assert (zlength l' < zlength l + 1) by (apply pow10_mono_inv; [unfold zlength|]; lia).
    assert (EL : length (x :: l) = length (y :: l')) by (unfold zlength in *; cbn; lia).
    rewrite <- (dig_of_value (x :: l)), <- (dig_of_value (y :: l')) by assumption. rewrite EL, E. reflexivity.
Qed.

Lemma digits_split a b a' b' : Forall is_digit b -> Forall is_digit b' -> length b = length b' ->
  digits_value (a ++ b) = digits_value (a' ++ b') -> digits_value a = digits_value a' /\ b = b'.
Proof.
  intros Hb Hb' L E. rewrite !digits_value_app in E. unfold zlength in E. rewrite <- L in E.
  pose proof (digits_value_bound b Hb) as B. pose proof (digits_value_bound b' Hb') as B'. unfold zlength in *. rewrite <- L in B'.
  assert (digits_value a = digits_value a') by nia. split; [assumption|].
  rewrite <- (dig_of_value b), <- (dig_of_value b') by assumption. rewrite <- L. f_equal. nia.
Qed.

Lemma canonical_unique n n' : canonical n -> canonical n' -> is_minus (n_sign n) = is_minus (n_sign n') ->
  zlength (n_frac n) = zlength (n_frac n') -> (numeral_value n == numeral_value n')%Q -> n = n'.
Proof.
  intros ((O1 & O2 & O3 & O4 & O5) & S & X & I & H & P) ((O1' & O2' & O3' & O4' & O5') & S' & X' & I' & H' & P') ES EF EV.
  destruct n as [s i p f e], n' as [s' i' p' f' e']. cbn [n_sign n_int n_point n_frac n_exp] in *. subst e e'.
  assert (s = s') as <- by (destruct s as [[]|], s' as [[]|]; cbn in ES; congruence).
  assert (LF : length f = length f') by (unfold zlength in EF; lia).
  unfold numeral_value in EV. cbn [n_sign n_int n_point n_frac n_exp numeral_exp] in EV. rewrite EF in EV.
  apply Qmult_inj_r in EV; [|intros K; pose proof (pow10_pos (0 - zlength f')) as PP; rewrite K in PP; exact (Qlt_irrefl _ PP)].
  assert (EV' : digits_value (i ++ f) = digits_value (i' ++ f')).
  { destruct (is_minus s); [apply Qopp_comp in EV; rewrite !Qopp_involutive in EV|]; apply inject_Z_injective; exact EV. }
  apply digits_split in EV'; try assumption. destruct EV' as [EI ->].
  assert (i = i') as <- by (apply stripped_unique; assumption).
  f_equal. destruct p, p'; try reflexivity; [symmetry; apply P'; apply P; reflexivity | apply P; apply P'; reflexivity].
Qed.

Lemma numeral_bytes_ascii n : numeral_ok n -> n_sign n <> Some false -> n_exp n = None ->
  Forall (fun b => b = 45 \/ b = 46 \/ 48 <= b <= 57) (numeral_bytes n).
Proof.
  intros (O1 & O2 & _) S X. unfold numeral_bytes. rewrite X, app_nil_r. 
  assert (D : forall l, Forall is_digit l -> Forall (fun b => b = 45 \/ b = 46 \/ 48 <= b <= 57) (map digit_byte l)).
  { induction 1 as [|x l Hx Hl IH]; [constructor|]. cbn [map]. constructor; [unfold is_digit, digit_byte in *; lia | exact IH]. }
  apply Forall_app. split; [|apply Forall_app; split; [apply D, O1|apply Forall_app; split; [|apply D, O2]]].
  - destruct (n_sign n) as [[|]|]; cbn [sign_bytes]; [constructor; [lia|constructor] | exfalso; now apply S | constructor].
  - destruct (n_point n); [constructor; [lia|constructor] | constructor].
Qed.

Lemma append_str_spec m d buf f : wf d -> exists s, to_string m d f = Ret s /\ append_str_buf m d buf f = Ret (buf ++ s) /\
  Forall (fun b => b = 45 \/ b = 46 \/ 48 <= b <= 57) s.
Proof.
  intros W. assert (HF : 0 <= (if f <? 0 then frac_digits d else f)) by (pose proof (wf_counts d W); destruct (f <? 0) eqn:E; lia).
  exists (numeral_bytes (printed d (if f <? 0 then frac_digits d else f))). unfold to_string. rewrite !append_str_ok by exact W.
  split; [reflexivity|]. split; [reflexivity|].
  destruct (printed_canonical d _ W HF) as (O & S & X & _). apply numeral_bytes_ascii; assumption.
Qed.

Lemma nohidden_truncate d f : wf d -> nohidden d -> frac_digits d <= f -> (truncate_at (value d) f == value d)%Q.
Proof. intros W N Hf. destruct (nohidden_multiple d f W N Hf) as [z Hz]. apply (truncate_at_multiple _ _ _ Hz). Qed.

(** ** Integers *)
Lemma integer_prints m d z : integer_decimal d z ->
  exists n, to_string m d (-1) = Ret (numeral_bytes n) /\ canonical n /\ n_point n = false /\ n_frac n = [] /\ is_minus (n_sign n) = (z <? 0) /\ (numeral_value n == inject_Z z)%Q.
Proof.
  intros (W & _ & _ & N & _ & V & F & S). destruct (to_string_ok m d (-1) W) as (n & E & C & Sn & Fn & Vn).
  change (-1 <? 0) with true in *. cbv iota in *. exists n. split; [exact E|]. split; [exact C|].
  assert (EF : n_frac n = []) by (rewrite F in Fn; unfold zlength in Fn; destruct (n_frac n); [reflexivity | cbn in Fn; lia]).
  split; [|split; [exact EF|split; [congruence|]]].
  - destruct C as (_ & _ & _ & _ & _ & P). destruct (n_point n); [|reflexivity]. exfalso. apply (proj1 P eq_refl). exact EF.
  - rewrite Vn, nohidden_truncate by (try assumption; lia). exact V.
Qed.
Lemma i64_prints m z : -9223372036854775808 <= z <= 9223372036854775807 ->
  exists d n, from_i64 m z = Ret d /\ to_string m d (-1) = Ret (numeral_bytes n) /\ canonical n /\
    n_point n = false /\ n_frac n = [] /\ is_minus (n_sign n) = (z <? 0) /\ (numeral_value n == inject_Z z)%Q.
Proof.
  intros H. destruct (from_i64_ok m z H) as (d & E & I). destruct (integer_prints m d z I) as (n & Hn).
  exists d, n. split; [exact E | exact Hn].
Qed.
Lemma u64_prints m z : 0 <= z <= 18446744073709551615 ->
  exists d n, from_u64 m z = Ret d /\ to_string m d (-1) = Ret (numeral_bytes n) /\ canonical n /\
    n_point n = false /\ n_frac n = [] /\ is_minus (n_sign n) = (z <? 0) /\ (numeral_value n == inject_Z z)%Q.
Proof.
  intros H. destruct (from_u64_ok m z H) as (d & E & I & _). destruct (integer_prints m d z I) as (n & Hn).
  exists d, n. split; [exact E | exact Hn].
Qed.
