(** * Division: the loops. *)
From Coq Require Import ZArith List Bool Lia.
From Coq Require Import ZifyBool ZifyNat.
From Verif Require Import Rust Tables Model_Base Model_Cmp Model_Arith Spec Lib Cmp AddSub Sign Mul DivBasics.
Import ListNotations.
Open Scope Z_scope.
Ltac Zify.zify_post_hook ::= Z.div_mod_to_equations.

(** The units from index [i] downwards, zero below index 0. *)
Definition dg (l : list Z) (i : Z) : Z := if i <? 0 then 0 else zn l i.
Fixpoint tops (l : list Z) (i : Z) (n : nat) : Z :=
  match n with
  | O => 0
  | S n' => dg l i * base ^ Z.of_nat n' + tops l (i - 1) n'
  end.

Lemma dg_bound l i : uok l -> 0 <= dg l i < base.
Proof. intros U. unfold dg. destruct (i <? 0); [unfold base; lia|apply uok_zn, U]. Qed.
Lemma tops_bound l n : uok l -> forall i, 0 <= tops l i n < base ^ Z.of_nat n.
Proof.
  intros U. induction n as [|n IH]; intros i; [cbn; lia|]. cbn [tops].
  specialize (IH (i - 1)). pose proof (dg_bound l i U). replace (Z.of_nat (S n)) with (Z.of_nat n + 1) by lia.
  rewrite base_S by lia. pose proof (pow_base_pos (Z.of_nat n) ltac:(lia)). nia.
Qed.
Lemma tops_neg l n : forall i, i < 0 -> tops l i n = 0.
Proof. induction n as [|n IH]; intros i H; [reflexivity|]. cbn [tops]. unfold dg. replace (i <? 0) with true by lia. rewrite IH by lia. lia. Qed.
Lemma tops_ext l l' n : forall i, (forall k, k <= i -> i - Z.of_nat n < k -> dg l k = dg l' k) -> tops l i n = tops l' i n.
Proof.
  induction n as [|n IH]; intros i H; [reflexivity|]. cbn [tops]. rewrite (H i) by lia. rewrite (IH (i - 1)); [reflexivity|].
  intros k K1 K2. apply H; lia.
Qed.
Lemma tops_app l k n : forall i, tops l i (n + k) = tops l i n * base ^ Z.of_nat k + tops l (i - Z.of_nat n) k.
Proof.
  induction n as [|n IH]; intros i; [cbn; f_equal; lia|]. cbn [tops Nat.add]. rewrite IH.
  replace (Z.of_nat (n + k)) with (Z.of_nat n + Z.of_nat k) by lia. rewrite base_pow_split by lia.
  replace (i - 1 - Z.of_nat n) with (i - Z.of_nat (S n)) by lia. ring.
Qed.
Lemma tops_sg l n : forall i, Z.of_nat n <= i + 1 -> tops l i n = sg l (i + 1 - Z.of_nat n) (Z.of_nat n).
Proof.
  induction n as [|n IH]; intros i H; [reflexivity|]. cbn [tops]. rewrite IH by lia.
  replace (Z.of_nat (S n)) with (Z.of_nat n + 1) by lia. rewrite sg_snoc by lia.
  unfold dg. replace (i <? 0) with false by lia.
  replace (i + 1 - (Z.of_nat n + 1)) with (i - 1 + 1 - Z.of_nat n) by lia. replace (i - 1 + 1 - Z.of_nat n + Z.of_nat n) with i by lia. ring.
Qed.

(** [sfl x p]: [x * base^p] rounded down. *)
Definition sfl (x p : Z) : Z := x * base ^ Z.max 0 p / base ^ Z.max 0 (- p).
Lemma tops_sfl l i n : uok l -> -1 <= i -> tops l i n = sfl (sg l 0 (i + 1)) (Z.of_nat n - i - 1).
Proof.
  intros U I. unfold sfl. destruct (Z.le_gt_cases (Z.of_nat n) (i + 1)) as [H|H].
  - rewrite tops_sg by lia. replace (Z.max 0 (Z.of_nat n - i - 1)) with 0 by lia.
    replace (Z.max 0 (- (Z.of_nat n - i - 1))) with (i + 1 - Z.of_nat n) by lia. rewrite Z.pow_0_r, Z.mul_1_r.
    set (k := i + 1 - Z.of_nat n). replace (i + 1) with (k + Z.of_nat n) by lia. rewrite sg_app by lia. replace (0 + k) with k by lia.
    pose proof (sg_bound l 0 k U ltac:(lia)). pose proof (pow_base_pos k ltac:(lia)).
    rewrite (Z.mul_comm (base ^ k)), Z.div_add, Z.div_small by lia. lia.
  - replace n with (Z.to_nat (i + 1) + (n - Z.to_nat (i + 1)))%nat by lia. rewrite tops_app.
    rewrite (tops_neg _ _ (i - _)) by lia. rewrite tops_sg by lia.
    replace (i + 1 - Z.of_nat (Z.to_nat (i + 1))) with 0 by lia. replace (Z.of_nat (Z.to_nat (i + 1))) with (i + 1) by lia.
    replace (Z.of_nat (n - Z.to_nat (i + 1))) with (Z.of_nat (Z.to_nat (i + 1) + (n - Z.to_nat (i + 1))) - i - 1) by lia.
    set (p := Z.of_nat (Z.to_nat (i + 1) + (n - Z.to_nat (i + 1))) - i - 1). assert (P : 0 < p) by (unfold p; lia). clearbody p.
    replace (Z.max 0 p) with p by lia. replace (Z.max 0 (- p)) with 0 by lia. rewrite Z.pow_0_r, Z.div_1_r. lia.
Qed.

(** Rescaling a quotient. *)
Lemma scale_eq X Y s t u v : 0 < Y -> 0 <= s -> 0 <= t -> 0 <= u -> 0 <= v -> s - t = u - v ->
  X * base ^ s / (Y * base ^ t) = X * base ^ u / (Y * base ^ v).
Proof.
  intros PY Hs Ht Hu Hv E.
  pose proof (pow_base_pos s Hs). pose proof (pow_base_pos t Ht). pose proof (pow_base_pos u Hu). pose proof (pow_base_pos v Hv).
  rewrite <- (Z.div_mul_cancel_r (X * base ^ s) (Y * base ^ t) (base ^ v)) by nia.
  rewrite <- (Z.div_mul_cancel_r (X * base ^ u) (Y * base ^ v) (base ^ t)) by nia.
  f_equal; [|ring]. rewrite <- !Z.mul_assoc, <- !base_pow_split by lia. do 2 f_equal. lia.
Qed.
Lemma sfl_div x p D : 0 < D -> sfl x p / D = x * base ^ Z.max 0 p / (D * base ^ Z.max 0 (- p)).
Proof.
  intros HD. unfold sfl. pose proof (pow_base_pos (Z.max 0 (- p)) ltac:(lia)).
  rewrite Z.div_div by lia. f_equal. ring.
Qed.

(** One step of a long-hand division. *)
Lemma div_step D R x n T : 0 < D -> 0 <= n ->
  (R * base ^ (n + 1) + (x * base ^ n + T)) / D =
  (R * base + x) / D * base ^ n + ((R * base + x) mod D * base ^ n + T) / D.
Proof.
  intros HD Hn. rewrite base_S by lia. pose proof (Z.div_mod (R * base + x) D ltac:(lia)) as E.
  set (q := (R * base + x) / D) in *. set (r := (R * base + x) mod D) in *.
  replace (R * (base * base ^ n) + (x * base ^ n + T)) with (q * base ^ n * D + (r * base ^ n + T)).
  - rewrite Z.div_add_l by lia. reflexivity.
  - replace (R * (base * base ^ n) + (x * base ^ n + T)) with ((R * base + x) * base ^ n + T) by ring. rewrite E. ring.
Qed.

Lemma short_div_ok m a d : uok a -> 0 < d < base -> forall n rem i r, uok r -> Z.of_nat n <= zlen r -> i < zlen a -> 0 <= rem < d ->
  exists r', short_div m n a d rem i r = Ret r' /\ wrote r r' 0 (Z.of_nat n) /\
    sg r' 0 (Z.of_nat n) = (rem * base ^ Z.of_nat n + tops a i n) / d.
Proof.
  intros Ua Hd. induction n as [|n IH]; intros rem i r Ur Hn Hi Hr.
  - exists r. split; [reflexivity|]. split; [apply wrote_refl, Ur|]. cbn. rewrite Z.div_small by lia. reflexivity.
  - cbn [short_div]. pose proof (dg_bound a i Ua) as Bx.
    assert (EU : (if i >=? 0 then t <- i64 m (rem * UNIT) ;; x <- get a i ;; i64 m (t + x) else i64 m (rem * UNIT)) = Ret (rem * base + dg a i)).
    { unfold dg in *. change UNIT with base. unfold base in *. destruct (Z.geb_spec i 0).
      - replace (i <? 0) with false in * by lia. rewrite i64_ok by lia. mret. rewrite get_ok by lia. mret. rewrite i64_ok by lia. reflexivity.
      - replace (i <? 0) with true in * by lia. rewrite i64_ok by lia. f_equal. lia. }
    rewrite EU. mret. clear EU. set (x := dg a i) in *.
    set (u := rem * base + x). assert (Du : u = rem * base + x) by reflexivity. assert (Bu : 0 <= u < d * base) by (unfold u, base in *; nia).
    unfold i64_div. replace (d =? 0) with false by lia. rewrite Z.quot_div_nonneg by lia.
    assert (Bq : 0 <= u / d < base) by (split; [apply Z.div_pos; lia|apply Z.div_lt_upper_bound; lia]).
    assert (Bqd : 0 <= u / d * d <= u) by (pose proof (Z.mul_div_le u d ltac:(lia)); nia).
    assert (BB : u < base * base) by (unfold base in *; nia).
    clearbody u. rewrite i64_ok by (unfold base in *; lia). mret. rewrite i64_ok by (unfold base in *; lia). mret.
    rewrite i64_ok by (unfold base in *; lia). mret. rewrite set_ok by lia. mret.
    rewrite as_i32_id by (unfold base in *; lia).
    replace (u - u / d * d) with (u mod d) by (rewrite Z.mod_eq by lia; lia).
    pose proof (Z.mod_pos_bound u d ltac:(lia)) as Bm.
    pose proof (wrote_upd r (Z.of_nat n) (u / d) Ur ltac:(lia) Bq) as W0.
    destruct (IH (u mod d) (i - 1) (upd (Z.to_nat (Z.of_nat n)) (u / d) r)) as (r' & E & W & Es);
      [apply W0|rewrite zlen_upd; lia|lia|exact Bm|].
    exists r'. split; [exact E|]. split.
    + eapply wrote_trans; [exact W0|exact W|lia..].
    + replace (Z.of_nat (S n)) with (Z.of_nat n + 1) by lia. rewrite sg_snoc by lia. rewrite Es.
      destruct W as (_ & _ & F). rewrite (F (0 + Z.of_nat n)) by lia.
      replace (0 + Z.of_nat n) with (Z.of_nat n) by lia. rewrite zn_upd_eq by lia.
      cbn [tops]. fold x. rewrite div_step by lia. rewrite <- Du. ring.
Qed.

(** The comparison of the leading units. *)
Fixpoint mv (l : list Z) : Z := match l with [] => 0 | x :: t => x * base ^ zlen t + mv t end.
Lemma mv_bound l : uok l -> 0 <= mv l < base ^ zlen l.
Proof.
  induction l as [|x l IH]; intros U; [cbn; lia|]. apply uok_cons in U. destruct U as [Hx U]. specialize (IH U).
  cbn [mv]. rewrite zlen_cons. pose proof (zlen_nonneg l). replace (1 + zlen l) with (zlen l + 1) by lia. rewrite base_S by lia.
  pose proof (pow_base_pos (zlen l) ltac:(lia)). nia.
Qed.
Lemma mv_snoc l x : mv (l ++ [x]) = mv l * base + x.
Proof.
  induction l as [|y l IH]; [cbn; lia|]. cbn [app mv]. rewrite IH. rewrite zlen_app. change (zlen [x]) with 1.
  rewrite base_S by (apply zlen_nonneg). ring.
Qed.
Lemma mv_rev l : mv (rev l) = sg l 0 (zlen l).
Proof.
  induction l as [|x l IH]; [reflexivity|]. cbn [rev]. rewrite mv_snoc, IH. rewrite zlen_cons, sg_cons_list by (apply zlen_nonneg). lia.
Qed.
Lemma zlen_rev (l : list Z) : zlen (rev l) = zlen l.
Proof. unfold zlen. now rewrite rev_length. Qed.

Lemma lex_ge x y X Y P : 0 <= X < P -> 0 <= Y < P ->
  (if x >? y then true else if x <? y then false else X >=? Y) = (x * P + X >=? y * P + Y).
Proof.
  intros HX HY. destruct (Z.gtb_spec x y) as [G|G].
  - symmetry. rewrite Z.geb_leb. apply Z.leb_le. nia.
  - destruct (Z.ltb_spec x y) as [L|L].
    + symmetry. rewrite Z.geb_leb. apply Z.leb_gt. nia.
    + assert (x = y) as -> by lia. rewrite !Z.geb_leb. destruct (Z.leb_spec Y X), (Z.leb_spec (y * P + Y) (y * P + X)); lia.
Qed.
Lemma uge_pad_r_ok l : forall r, uok l -> uok r -> zlen r <= zlen l -> uge_pad_r l r = (mv l >=? mv r * base ^ (zlen l - zlen r)).
Proof.
  induction l as [|x l IH]; intros r Ul Ur L.
  - destruct r; [reflexivity|]. rewrite zlen_cons in L. pose proof (zlen_nonneg r). change (zlen []) with 0 in L. lia.
  - apply uok_cons in Ul. destruct Ul as [Hx Ul]. cbn [uge_pad_r mv]. pose proof (mv_bound l Ul) as B. pose proof (zlen_nonneg l) as N.
    destruct r as [|y r].
    + rewrite IH by (auto; apply N). cbn [mv]. rewrite Z.mul_0_l.
      pose proof (lex_ge x 0 (mv l) 0 (base ^ zlen l) B ltac:(pose proof (pow_base_pos (zlen l) N); lia)) as E.
      rewrite Z.mul_0_l, Z.add_0_r in E. exact E.
    + apply uok_cons in Ur. destruct Ur as [Hy Ur]. rewrite !zlen_cons in *. rewrite IH by (auto; lia).
      cbn [mv]. pose proof (mv_bound r Ur) as Br. pose proof (zlen_nonneg r) as Nr.
      replace (1 + zlen l - (1 + zlen r)) with (zlen l - zlen r) by lia.
      set (k := zlen l - zlen r) in *. assert (K : base ^ zlen l = base ^ zlen r * base ^ k).
      { rewrite <- base_pow_split by lia. f_equal. lia. }
      pose proof (pow_base_pos k ltac:(lia)).
      rewrite (lex_ge x y (mv l) (mv r * base ^ k) (base ^ zlen l)); [|exact B|rewrite K; nia].
      f_equal. rewrite K. ring.
Qed.
Lemma uge_pad_l_ok r : forall l, uok l -> uok r -> zlen l <= zlen r -> uge_pad_l l r = (mv l * base ^ (zlen r - zlen l) >=? mv r).
Proof.
  induction r as [|y r IH]; intros l Ul Ur L.
  - destruct l; [reflexivity|]. rewrite zlen_cons in L. pose proof (zlen_nonneg l). change (zlen []) with 0 in L. lia.
  - apply uok_cons in Ur. destruct Ur as [Hy Ur]. cbn [uge_pad_l mv]. pose proof (mv_bound r Ur) as B. pose proof (zlen_nonneg r) as N.
    destruct l as [|x l].
    + rewrite IH by (auto; apply N). cbn [mv]. rewrite !Z.mul_0_l.
      pose proof (lex_ge 0 y 0 (mv r) (base ^ zlen r) ltac:(pose proof (pow_base_pos (zlen r) N); lia) B) as E.
      rewrite Z.mul_0_l, Z.add_0_r in E. exact E.
    + apply uok_cons in Ul. destruct Ul as [Hx Ul]. rewrite !zlen_cons in *. rewrite IH by (auto; lia).
      cbn [mv]. pose proof (mv_bound l Ul) as Br. pose proof (zlen_nonneg l) as Nr.
      replace (1 + zlen r - (1 + zlen l)) with (zlen r - zlen l) by lia.
      set (k := zlen r - zlen l) in *. assert (K : base ^ zlen r = base ^ zlen l * base ^ k).
      { rewrite <- base_pow_split by lia. f_equal. lia. }
      pose proof (pow_base_pos k ltac:(lia)).
      rewrite (lex_ge x y (mv l * base ^ k) (mv r) (base ^ zlen r)); [|rewrite K; nia|exact B].
      f_equal. rewrite K. ring.
Qed.
Lemma geb_mul_r x y P : 0 < P -> (x >=? y) = (x * P >=? y * P).
Proof. intros H. rewrite !Z.geb_leb. destruct (Z.leb_spec y x), (Z.leb_spec (y * P) (x * P)); nia. Qed.
Lemma uge_ok l r : uok l -> uok r ->
  units_greater_equal l r = (sg l 0 (zlen l) * base ^ zlen r >=? sg r 0 (zlen r) * base ^ zlen l).
Proof.
  intros Ul Ur. pose proof (zlen_nonneg l). pose proof (zlen_nonneg r).
  assert (Ul' : uok (rev l)) by (apply Forall_rev, Ul). assert (Ur' : uok (rev r)) by (apply Forall_rev, Ur).
  unfold units_greater_equal. destruct (Z.gtb_spec (zlen l) (zlen r)) as [G|G].
  - rewrite uge_pad_r_ok by (auto; rewrite !zlen_rev; lia). rewrite !mv_rev, !zlen_rev.
    rewrite (geb_mul_r _ _ (base ^ zlen r)) by (apply pow_base_pos; lia). f_equal. rewrite <- Z.mul_assoc, <- base_pow_split by lia. do 2 f_equal. lia.
  - rewrite uge_pad_l_ok by (auto; rewrite !zlen_rev; lia). rewrite !mv_rev, !zlen_rev.
    rewrite (geb_mul_r _ _ (base ^ zlen l)) by (apply pow_base_pos; lia). f_equal. rewrite <- Z.mul_assoc, <- base_pow_split by lia. do 2 f_equal. lia.
Qed.
