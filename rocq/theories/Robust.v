(** * Division and remainder whatever the guesses of the quotient units are. *)
From Coq Require Import ZArith List Bool Lia QArith.
From Coq Require Import ZifyBool ZifyNat.
From Verif Require Import Rust Tables Model_Base Model_Cmp Model_Arith Spec Lib Cmp AddSub Sign Mul DivBasics Div Div2 Div3 Div4 Div5 DivQ Rem Rem2 Rem3 Agree Term.
Import ListNotations.
Open Scope Z_scope.
Ltac Zify.zify_post_hook ::= Z.div_mod_to_equations.

(** Units below [B]. *)
Definition ubelow (B : Z) (l : list Z) : Prop := Forall (fun u => 0 <= u < B) l.
(** What a guess may be: the debug build asserts that it is a unit. *)
Definition qb (m : build) : Z := match m with Debug => base | Release => 2 * base end.
Lemma qb_le m : base <= qb m <= 2 * base.
Proof. destruct m; cbn; unfold base; lia. Qed.

Lemma nf_half y : 1 <= y < base -> base <= 2 * (base / (y + 1) * y).
Proof.
  intros Hy. pose proof (Z.div_mod base (y + 1) ltac:(lia)) as DM. pose proof (Z.mod_pos_bound base (y + 1) ltac:(lia)) as BM.
  assert (N1 : 1 <= base / (y + 1)) by (apply Z.div_le_lower_bound; lia).
  set (nf := base / (y + 1)) in *. set (r := base mod (y + 1)) in *. clearbody nf r.
  assert (D : nf = 1 \/ y = 1 \/ 2 <= nf /\ 2 <= y) by (clear - N1 Hy; lia). destruct D as [->|[->|[N2 Y2]]].
  - assert (2 * (base / 2) = base) by reflexivity. unfold base in *. lia.
  - assert (r = 0 \/ r = 1) as [->| ->] by (clear - BM; lia); unfold base in *; lia.
  - assert (2 * (y - 1) <= nf * (y - 1)) by (apply Z.mul_le_mono_nonneg_r; lia). lia.
Qed.

(** ** The guess *)
Lemma qhat_loop_any m d0 d1 u2 : base <= 2 * d0 -> d0 < base -> 0 <= d1 < base -> 0 <= u2 < base -> forall fuel qhat rhat, 1 <= Z.of_nat fuel ->
  0 <= qhat < 2 * base -> 0 <= rhat -> rhat + Z.of_nat fuel * d0 <= 9 * base -> 2 * base <= rhat + (Z.of_nat fuel - 1) * d0 ->
  exists q, qhat_loop m fuel qhat rhat d0 d1 u2 = Ret q /\ 0 <= q <= qhat.
Proof.
  intros H0 H0' H1 H2. induction fuel as [|fuel IH]; intros qhat rhat HF1 Hq Hr HB HF; [clear - HF1; cbn in HF1; lia|].
  cbn [qhat_loop]. replace (Z.of_nat (S fuel)) with (Z.of_nat fuel + 1) in * by (clear; lia). set (f := Z.of_nat fuel) in *. assert (F0 : 0 <= f) by (unfold f; clear; lia). clearbody f.
  assert (FD : 0 <= f * d0) by (apply Z.mul_nonneg_nonneg; [exact F0|clear - H0; unfold base in *; lia]).
  assert (B1 : 0 <= qhat * d1 < 2000000000000000000).
  { split; [apply Z.mul_nonneg_nonneg; lia|]. clear - Hq H1. assert (qhat * d1 <= (2 * base - 1) * (base - 1)) by (apply Z.mul_le_mono_nonneg; lia). unfold base in *. lia. }
  assert (B2 : 0 <= rhat <= 9 * base) by (clear - Hr HB FD H0; unfold base in *; lia).
  set (p := qhat * d1) in *. assert (Ep : p = qhat * d1) by reflexivity. clearbody p. change UNIT with base.
  rewrite i64_ok by (clear - B1; lia). mret. rewrite i64_ok by (clear - B2; unfold base in *; lia). mret. rewrite i64_ok by (clear - B2 H2; unfold base in *; lia). mret.
  destruct (Z.gtb_spec p (rhat * base + u2)) as [G|G].
  - assert (Q1 : 1 <= qhat). { destruct (Z.eq_dec qhat 0) as [->|]; [exfalso|lia]. clear - G Ep H2 B2. unfold base in *. lia. }
    rewrite i64_ok by (clear - Hq; unfold base in *; lia). mret. rewrite i64_ok by (clear - B2 H0 H0'; unfold base in *; lia). mret.
    assert (R2 : rhat < 2 * base) by (clear - G B1 H2; unfold base in *; lia).
    destruct (IH (qhat - 1) (rhat + d0)) as (q & E & Hq').
    + destruct (Z.eq_dec f 0) as [->|]; [exfalso; clear - HF R2; lia|lia].
    + lia.
    + clear - B2 H0. unfold base in *. lia.
    + clear - HB. lia.
    + clear - HF. lia.
    + exists q. split; [exact E|lia].
  - exists qhat. split; [reflexivity|lia].
Qed.

Lemma guess_any m buf i d0 d1 : uok buf -> zlen buf <= 18 -> base <= 2 * d0 -> d0 < base -> 0 <= d1 < base -> -64 <= i <= 64 ->
  (exists q, guess_qhat m buf i d0 d1 = Ret q /\ 0 <= q < qb m /\ -1 <= i /\ i + 1 < zlen buf) \/
  (exists p, guess_qhat m buf i d0 d1 = Panic p /\ p <> PFuel /\ (m = Release -> -1 <= i -> i + 1 < zlen buf -> False)).
Proof.
  intros U L H0 H0' H1 Hi.
  assert (EK : (usize m (as_usize i + 1) = Ret (i + 1) /\ 0 <= i) \/ (i = -1 /\ m = Release /\ usize m (as_usize i + 1) = Ret 0) \/ (i = -1 /\ m = Debug /\ usize m (as_usize i + 1) = Panic POverflow) \/ 
    (i < -1 /\ exists k, 18 <= k /\ usize m (as_usize i + 1) = Ret k)).
  { destruct (Z.le_gt_cases 0 i) as [I|I].
    - left. split; [|exact I]. rewrite as_usize_id by lia. apply usize_ok. lia.
    - destruct (Z.eq_dec i (-1)) as [->|N].
      + right. destruct m; [right; left|left]; auto.
      + right. right. right. split; [lia|]. exists (18446744073709551616 + i + 1). split; [lia|].
        unfold as_usize. rewrite <- (Z.mod_unique i 18446744073709551616 (-1) (18446744073709551616 + i)) by lia. apply usize_ok. lia. }
  unfold guess_qhat. destruct EK as [(EK & I)|[(I & M & EK)|[(I & M & EK)|(I & k & Hk & EK)]]]; rewrite EK; clear EK.
  3: { right. eexists. split; [reflexivity|]. split; [discriminate|]. rewrite M. discriminate. }
  3: { right. mret. rewrite get_out by lia. eexists. split; [reflexivity|]. split; [discriminate|]. intros; lia. }
  - mret. destruct (Z.lt_ge_cases (i + 1) (zlen buf)) as [B|B]; [|right; rewrite get_out by lia; eexists; split; [reflexivity|split; [discriminate|intros; lia]]].
    rewrite get_ok by lia. mret. replace (i >=? 0) with true by lia. rewrite get_ok by lia. mret.
    pose proof (uok_zn buf (i + 1) U) as B0. pose proof (uok_zn buf i U) as B1. set (u0 := zn buf (i + 1)) in *. set (u1 := zn buf i) in *. clearbody u0 u1.
    change UNIT with base. rewrite i64_ok by (clear - B0; unfold base in *; lia). mret. rewrite i64_ok by (clear - B0 B1; unfold base in *; lia). mret.
    set (u := u0 * base + u1) in *. assert (Bu : 0 <= u < base * base) by (unfold u; clear - B0 B1; unfold base in *; lia). clearbody u.
    assert (D0 : 0 < d0) by (clear - H0; unfold base in *; lia).
    rewrite i64_div_ok by (clear - Bu D0 H0'; unfold base in *; lia). mret.
    assert (Hq : 0 <= u / d0 < 2 * base).
    { split; [apply Z.div_pos; [apply Bu|exact D0]|]. apply Z.div_lt_upper_bound; [exact D0|]. apply Z.lt_le_trans with (1 := proj2 Bu). replace (d0 * (2 * base)) with (2 * d0 * base) by ring. apply Z.mul_le_mono_nonneg_r; [unfold base; lia|exact H0]. }
    pose proof (Z.div_mod u d0 ltac:(clear - D0; lia)) as DM. pose proof (Z.mod_pos_bound u d0 D0) as BM.
    set (q := u / d0) in *. set (r := u mod d0) in *. clearbody q r.
    assert (Bqd : 0 <= q * d0 <= u) by (split; [apply Z.mul_nonneg_nonneg; lia|lia]).
    rewrite i64_ok by (clear - Bqd Bu; unfold base in *; lia). mret. rewrite i64_ok by (clear - Bqd Bu; unfold base in *; lia). mret. replace (u - q * d0) with r by lia.
    assert (EA : (debug_assert m (q <? base) = Ret tt /\ q < qb m) \/ (m = Debug /\ debug_assert m (q <? base) = Panic PAssert)).
    { destruct m; cbn [debug_assert qb]; [|left; split; [reflexivity|apply Hq]]. destruct (Z.ltb_spec q base); [left|right]; auto. }
    destruct EA as [(EA & Hqm)|(M & EA)]; rewrite EA; clear EA; [|right; eexists; split; [reflexivity|split; [discriminate|rewrite M; discriminate]]]. mret.
    assert (E2 : exists u2, (if i >? 0 then get buf (i - 1) else Ret 0) = Ret u2 /\ 0 <= u2 < base).
    { destruct (i >? 0) eqn:G; [|exists 0; split; [reflexivity|unfold base; lia]]. rewrite get_ok by lia. eexists. split; [reflexivity|]. apply uok_zn, U. }
    destruct E2 as (u2 & -> & B2). mret.
    destruct (qhat_loop_any m d0 d1 u2 H0 H0' H1 B2 qhat_fuel q r ltac:(cbn; lia) Hq (proj1 BM)) as (q' & E & Hq').
    + change (Z.of_nat qhat_fuel) with 8. clear - BM H0'. lia.
    + change (Z.of_nat qhat_fuel) with 8. clear - BM H0. lia.
    + left. exists q'. split; [exact E|]. lia.
  - subst i m. mret. destruct (Z.lt_ge_cases 0 (zlen buf)) as [B|B]; [|right; rewrite get_out by lia; eexists; split; [reflexivity|split; [discriminate|intros; lia]]].
    rewrite get_ok by lia. mret. cbn [Z.geb Z.compare Z.gtb]. mret.
    pose proof (uok_zn buf 0 U) as B0. set (u0 := zn buf 0) in *. clearbody u0.
    change UNIT with base. rewrite i64_ok by (clear - B0; unfold base in *; lia). mret. rewrite i64_ok by (clear - B0; unfold base in *; lia). mret.
    set (u := u0 * base + 0) in *. assert (Bu : 0 <= u < base * base) by (unfold u; clear - B0; unfold base in *; lia). clearbody u.
    assert (D0 : 0 < d0) by (clear - H0; unfold base in *; lia).
    rewrite i64_div_ok by (clear - Bu D0 H0'; unfold base in *; lia). mret.
    assert (Hq : 0 <= u / d0 < 2 * base).
    { split; [apply Z.div_pos; [apply Bu|exact D0]|]. apply Z.div_lt_upper_bound; [exact D0|]. apply Z.lt_le_trans with (1 := proj2 Bu). replace (d0 * (2 * base)) with (2 * d0 * base) by ring. apply Z.mul_le_mono_nonneg_r; [unfold base; lia|exact H0]. }
    pose proof (Z.div_mod u d0 ltac:(clear - D0; lia)) as DM. pose proof (Z.mod_pos_bound u d0 D0) as BM.
    set (q := u / d0) in *. set (r := u mod d0) in *. clearbody q r.
    assert (Bqd : 0 <= q * d0 <= u) by (split; [apply Z.mul_nonneg_nonneg; lia|lia]).
    rewrite i64_ok by (clear - Bqd Bu; unfold base in *; lia). mret. rewrite i64_ok by (clear - Bqd Bu; unfold base in *; lia). mret. replace (u - q * d0) with r by lia.
    cbn [debug_assert]. mret. mret.
    destruct (qhat_loop_any Release d0 d1 0 H0 H0' H1 ltac:(unfold base; lia) qhat_fuel q r ltac:(cbn; lia) Hq (proj1 BM)) as (q' & E & Hq').
    + change (Z.of_nat qhat_fuel) with 8. clear - BM H0'. lia.
    + change (Z.of_nat qhat_fuel) with 8. clear - BM H0. lia.
    + left. exists q'. split; [exact E|]. cbn [qb]. lia.
Qed.

(** ** Multiply and subtract *)
Lemma ms_step m q d c : 0 <= q < 2 * base -> 0 <= d < base -> 0 <= c < 2 * base -> forall A (k : Z -> Z -> outcome A),
  (p <- i64 m (q * d) ;; mul_v <- i64 m (p + c) ;; carry <- i64_div m mul_v UNIT ;; cu <- i64 m (carry * UNIT) ;; mul_v0 <- i64 m (mul_v - cu) ;; k carry mul_v0)
  = k ((q * d + c) / base) ((q * d + c) mod base) /\ 0 <= (q * d + c) / base < 2 * base /\ 0 <= (q * d + c) mod base < base.
Proof.
  intros Hq Hd Hc A k. assert (B : 0 <= q * d <= (2 * base - 1) * (base - 1)) by (split; [apply Z.mul_nonneg_nonneg; lia|apply Z.mul_le_mono_nonneg; lia]).
  set (x := q * d) in *. clearbody x. rewrite i64_ok by (clear - B; unfold base in *; lia). mret. rewrite i64_ok by (clear - B Hc; unfold base in *; lia). mret.
  set (v := x + c) in *. assert (Bv : 0 <= v <= (2 * base - 1) * base) by (unfold v; clear - B Hc; unfold base in *; lia). clearbody v. change UNIT with base.
  rewrite i64_div_ok by (clear - Bv; unfold base in *; lia). mret.
  pose proof (Z.div_mod v base ltac:(unfold base; lia)) as DM. pose proof (Z.mod_pos_bound v base ltac:(reflexivity)) as BM.
  assert (Hq' : 0 <= v / base < 2 * base). { split; [apply Z.div_pos; [apply Bv|reflexivity]|]. apply Z.div_lt_upper_bound; [reflexivity|]. clear - Bv. unfold base in *. lia. }
  set (c' := v / base) in *. set (r := v mod base) in *. clearbody c' r.
  rewrite i64_ok by (clear - Hq'; unfold base in *; lia). mret. rewrite i64_ok by (clear - DM BM Hq'; unfold base in *; lia). mret. replace (v - c' * base) with r by lia. auto.
Qed.

Lemma mul_sub_any m q : 0 <= q < 2 * base -> forall b2 buf ms c b, uok buf -> uok b2 -> ms + zlen b2 <= zlen buf -> 0 <= c < 2 * base -> -1 <= b <= 0 ->
  exists buf' c' b', mul_sub m b2 q buf ms c b = Ret (buf', c', b') /\ uok buf' /\ zlen buf' = zlen buf /\ (forall k, ms + zlen b2 <= k -> zn buf' k = zn buf k) /\
    0 <= c' < 2 * base /\ -1 <= b' <= 0 /\ (q = 0 -> c = 0 -> b = 0 -> c' = 0 /\ b' = 0).
Proof.
  intros Hq. induction b2 as [|d b2 IH]; intros buf ms c b U U2 L Hc Hb.
  - exists buf, c, b. repeat (split; [solve [auto]|]). auto.
  - apply uok_cons in U2. destruct U2 as [Hd U2]. rewrite zlen_cons in *. pose proof (zlen_nonneg b2) as NN. cbn [mul_sub].
    destruct (ms_step m q d c Hq Hd Hc _ (fun carry mul_v0 => if ms <? 0 then '(_, b0) <- sub_with_borrow m 0 (as_i32 mul_v0) b ;; mul_sub m b2 q buf (ms + 1) carry b0
        else x <- get buf ms ;; '(sub_v, b0) <- sub_with_borrow m x (as_i32 mul_v0) b ;; buf1 <- set buf ms sub_v ;; mul_sub m b2 q buf1 (ms + 1) carry b0)) as (E & Hc' & Hv).
    rewrite E. clear E. set (c1 := (q * d + c) / base) in *. set (v := (q * d + c) mod base) in *.
    assert (Q0 : q = 0 -> c = 0 -> c1 = 0 /\ v = 0) by (intros -> ->; split; reflexivity). clearbody c1 v.
    rewrite as_i32_id by (clear - Hv; unfold base in *; lia).
    destruct (Z.ltb_spec ms 0) as [M|M].
    + destruct (sub_with_borrow_ok m 0 v b ltac:(unfold base; lia) Hv Hb) as (s & b1 & E & Hs & Hb1 & Es). rewrite E. mret.
      destruct (IH buf (ms + 1) c1 b1 U U2 ltac:(lia) Hc' Hb1) as (buf' & c' & b' & E' & U' & L' & K & C' & B' & Q). exists buf', c', b'. split; [exact E'|]. split; [exact U'|]. split; [exact L'|].
      split; [intros k Hk; apply K; lia|]. split; [exact C'|]. split; [exact B'|]. intros X Y W. destruct (Q0 X Y) as [Z1 Z2]. apply Q; [exact X|exact Z1|]. clear - Es Hs Z2 W Hb1. unfold base in *. lia.
    + rewrite get_ok by lia. mret. pose proof (uok_zn buf ms U) as Bx.
      destruct (sub_with_borrow_ok m (zn buf ms) v b Bx Hv Hb) as (s & b1 & E & Hs & Hb1 & Es). rewrite E. mret. rewrite set_ok by lia. mret.
      destruct (IH (upd (Z.to_nat ms) s buf) (ms + 1) c1 b1 ltac:(apply uok_upd; assumption) U2 ltac:(rewrite zlen_upd; lia) Hc' Hb1) as (buf' & c' & b' & E' & U' & L' & K & C' & B' & Q).
      exists buf', c', b'. split; [exact E'|]. split; [exact U'|]. split; [rewrite L'; apply zlen_upd|].
      split; [intros k Hk; rewrite K by lia; apply zn_upd_ne; lia|]. split; [exact C'|]. split; [exact B'|]. intros X Y W. destruct (Q0 X Y) as [Z1 Z2]. apply Q; [exact X|exact Z1|].
      clear - Es Hs Z2 W Hb1 Bx. unfold base in *. lia.
Qed.

Lemma mul_sub_zip_any m q : 0 <= q < 2 * base -> forall w b2 c b, uok w -> uok b2 -> zlen w = zlen b2 -> 0 <= c < 2 * base -> -1 <= b <= 0 ->
  exists w' c' b', mul_sub_zip m q w b2 c b = Ret (w', c', b') /\ uok w' /\ zlen w' = zlen w /\ 0 <= c' < 2 * base /\ -1 <= b' <= 0.
Proof.
  intros Hq. induction w as [|x w IH]; intros b2 c b U U2 L Hc Hb.
  - destruct b2; [|rewrite zlen_cons in L; pose proof (zlen_nonneg b2); change (zlen []) with 0 in L; lia]. exists [], c, b. repeat (split; [solve [auto]|]). exact Hb.
  - destruct b2 as [|d b2]; [rewrite zlen_cons in L; pose proof (zlen_nonneg w); change (zlen []) with 0 in L; lia|].
    apply uok_cons in U2. destruct U2 as [Hd U2]. apply uok_cons in U. destruct U as [Hx U]. rewrite !zlen_cons in *. cbn [mul_sub_zip].
    destruct (ms_step m q d c Hq Hd Hc _ (fun carry mul_v0 => '(sub_v, b0) <- sub_with_borrow m x (as_i32 mul_v0) b ;; '(t, c, b) <- mul_sub_zip m q w b2 carry b0 ;; Ret (sub_v :: t, c, b))) as (E & Hc' & Hv).
    rewrite E. clear E. set (c1 := (q * d + c) / base) in *. set (v := (q * d + c) mod base) in *. clearbody c1 v.
    rewrite as_i32_id by (clear - Hv; unfold base in *; lia).
    destruct (sub_with_borrow_ok m x v b Hx Hv Hb) as (s & b1 & E & Hs & Hb1 & Es). rewrite E. mret.
    destruct (IH b2 c1 b1 U U2 ltac:(lia) Hc' Hb1) as (w' & c' & b' & E' & U' & L' & C' & B'). rewrite E'. mret. exists (s :: w'), c', b'. split; [reflexivity|].
    split; [apply uok_cons; auto|]. split; [rewrite zlen_cons; lia|]. auto.
Qed.

Lemma negate_any m n : forall l i b, uok l -> 0 <= i -> i + Z.of_nat n <= zlen l -> -1 <= b <= 0 ->
  exists l' b', negate_units m n l i b = Ret (l', b') /\ uok l' /\ zlen l' = zlen l /\ (forall k, 0 <= k -> k < i \/ i + Z.of_nat n <= k -> zn l' k = zn l k).
Proof.
  induction n as [|n IH]; intros l i b U I L Hb; [exists l, b; auto|]. cbn [negate_units]. rewrite get_ok by lia. mret.
  destruct (sub_with_borrow_ok m 0 (zn l i) b ltac:(unfold base; lia) (uok_zn l i U) Hb) as (s & b1 & E & Hs & Hb1 & _). rewrite E. mret. rewrite set_ok by lia. mret.
  destruct (IH (upd (Z.to_nat i) s l) (i + 1) b1 ltac:(apply uok_upd; assumption) ltac:(lia) ltac:(rewrite zlen_upd; lia) Hb1) as (l' & b' & E' & U' & L' & K).
  exists l', b'. split; [exact E'|]. split; [exact U'|]. split; [rewrite L'; apply zlen_upd|]. intros k Hk0 Hk. rewrite K by lia. apply zn_upd_ne; lia.
Qed.

(** ** The loops *)
Lemma ubelow_zn B l k : 0 < B -> ubelow B l -> 0 <= zn l k < B.
Proof. intros HB U. unfold zn. destruct (nth_in_or_default (Z.to_nat k) l 0) as [H|H]; [|rewrite H; lia]. unfold ubelow in U. rewrite Forall_forall in U. apply U, H. Qed.
Lemma ubelow_upd B l n v : ubelow B l -> 0 <= v < B -> ubelow B (upd n v l).
Proof. intros U Hv. revert n. induction U as [|x l Hx U IH]; intros n; destruct n; cbn [upd]; constructor; auto. apply IH. Qed.

Lemma long_div_any m b2 rnz d0 d1 : uok b2 -> zlen b2 = rnz + 1 -> 0 <= rnz <= 8 -> base <= 2 * d0 -> d0 < base -> 0 <= d1 < base -> forall n buf i r,
  uok buf -> zlen buf = 18 -> ubelow (qb m) r -> zlen r = 9 -> Z.of_nat n <= 9 -> -2 <= i <= 64 ->
  (exists r', long_div m n b2 rnz d0 d1 buf i r = Ret r' /\ ubelow (qb m) r' /\ zlen r' = 9 /\ forall k, Z.of_nat n <= k -> zn r' k = zn r k) \/
  (exists p, long_div m n b2 rnz d0 d1 buf i r = Panic p /\ p <> PFuel /\ (m = Release -> Z.of_nat n <= i + 2 -> i + 1 < 18 -> False)).
Proof.
  intros U2 L2 HR H0 H0' H1. induction n as [|n IH]; intros buf i r U L Ur Lr Hn Hi; [left; exists r; auto|]. cbn [long_div].
  destruct (guess_any m buf i d0 d1 U ltac:(lia) H0 H0' H1 ltac:(lia)) as [(q & E & Hq & I1 & I2)|(p & E & NFu & NP)]; rewrite E.
  2: { right. exists p. split; [reflexivity|]. split; [exact NFu|]. intros M X Y. apply (NP M); lia. }
  clear E. mret. pose proof (qb_le m) as QB.
  destruct (mul_sub_any m q ltac:(lia) b2 buf (i - rnz) 0 0 U U2 ltac:(lia) ltac:(unfold base; lia) ltac:(lia)) as (buf1 & c & b & E & U1 & L1 & _ & Hc & Hb & Q0). rewrite E. clear E. mret.
  rewrite get_ok by lia. mret. pose proof (uok_zn buf1 (i + 1) U1) as Bx. set (x := zn buf1 (i + 1)) in *. clearbody x.
  rewrite as_i32_id by (clear - Hc; unfold base in *; lia). rewrite i32_ok by (clear - Bx Hc; unfold base in *; lia). mret. rewrite i32_ok by (clear - Bx Hc Hb; unfold base in *; lia). mret.
  assert (EB : exists q' buf2, (if b + (x - c) =? -1 then q0 <- i64 m (q - 1) ;; '(buf0, _) <- negate_units m (Z.to_nat rnz) buf1 (Z.of_nat n) 0 ;; Ret (q0, buf0) else buf0 <- set buf1 (i + 1) 0 ;; Ret (q, buf0)) = Ret (q', buf2)
     /\ 0 <= q' < qb m /\ uok buf2 /\ zlen buf2 = 18).
  { destruct (Z.eqb_spec (b + (x - c)) (-1)) as [B|B].
    - assert (Q1 : 1 <= q) by (destruct (Z.eq_dec q 0) as [->|]; [exfalso; destruct (Q0 eq_refl eq_refl eq_refl); lia|lia]).
      rewrite i64_ok by (clear - Q1 Hq QB; unfold base in *; lia). mret.
      destruct (negate_any m (Z.to_nat rnz) buf1 (Z.of_nat n) 0 U1 ltac:(lia) ltac:(lia) ltac:(lia)) as (buf2 & b' & E & U' & L' & _). rewrite E. mret.
      exists (q - 1), buf2. split; [reflexivity|]. split; [lia|]. split; [exact U'|lia].
    - rewrite set_ok by lia. mret. exists q, (upd (Z.to_nat (i + 1)) 0 buf1). split; [reflexivity|]. split; [exact Hq|]. split; [apply uok_upd; [exact U1|unfold base; lia]|rewrite zlen_upd; lia]. }
  destruct EB as (q' & buf2 & -> & Hq' & U' & L'). mret. rewrite set_ok by lia. mret. rewrite as_i32_id by (clear - Hq' QB; unfold base in *; lia).
  destruct (IH buf2 (i - 1) (upd (Z.to_nat (Z.of_nat n)) q' r) U' L' ltac:(apply ubelow_upd; assumption) ltac:(rewrite zlen_upd; exact Lr) ltac:(lia) ltac:(lia)) as [(r' & E & Ur' & Lr' & K)|(p & E & NFu & NP)].
  - left. exists r'. split; [exact E|]. split; [exact Ur'|]. split; [exact Lr'|]. intros k Hk. rewrite K by lia. apply zn_upd_ne; lia.
  - right. exists p. split; [exact E|]. split; [exact NFu|]. intros M X Y. apply (NP M); lia.
Qed.

Lemma long_rem_any m b2 len d0 d1 : uok b2 -> zlen b2 = len -> 1 <= len -> base <= 2 * d0 -> d0 < base -> 0 <= d1 < base -> forall n buf i,
  uok buf -> zlen buf = 18 -> i + 2 = len + Z.of_nat n -> i <= 64 -> (forall k, i + 1 < k < 18 -> zn buf k = 0) ->
  (exists buf', long_rem m n b2 len d0 d1 buf i = Ret buf' /\ uok buf' /\ zlen buf' = 18 /\ (1 <= Z.of_nat n -> forall k, len <= k < 18 -> zn buf' k = 0)) \/
  (exists p, long_rem m n b2 len d0 d1 buf i = Panic p /\ p <> PFuel /\ (m = Release -> i + 1 < 18 -> False)).
Proof.
  intros U2 L2 HR H0 H0' H1. induction n as [|n IH]; intros buf i U L Ei HI HZ; [left; exists buf; split; [reflexivity|]; split; [exact U|]; split; [exact L|]; lia|]. cbn [long_rem].
  destruct (guess_any m buf i d0 d1 U ltac:(lia) H0 H0' H1 ltac:(lia)) as [(q & E & Hq & I1 & I2)|(p & E & NFu & NP)]; rewrite E; [|right; exists p; split; [reflexivity|]; split; [exact NFu|]; intros M I; apply (NP M); lia].
  clear E. mret. pose proof (qb_le m) as QB.
  rewrite slice_ok by lia. mret. set (w := firstn (Z.to_nat (i + 1 - (i - len + 1))) (skipn (Z.to_nat (i - len + 1)) buf)).
  assert (Uw : uok w) by (apply Forall_firstn, Forall_skipn, U).
  assert (I18 : i + 1 < 18) by (clear - I2 L; lia). assert (Lw : zlen w = len) by (unfold w, zlen; rewrite firstn_length, skipn_length; unfold zlen in L; clear - L Ei I1 I18 HR; lia). clearbody w.
  destruct (mul_sub_zip_any m q ltac:(clear - Hq QB; lia) w b2 0 0 Uw U2 ltac:(clear - Lw L2; lia) ltac:(unfold base; lia) ltac:(lia)) as (w' & c & b & E & U1 & L1 & Hc & Hb). rewrite E. clear E. mret.
  rewrite write_slice_ok by lia. mret. set (buf1 := blit buf (i - len + 1) w').
  assert (UB1 : uok buf1) by (apply uok_blit; assumption). assert (LB1 : zlen buf1 = 18) by (unfold buf1; rewrite zlen_blit by lia; exact L).
  assert (K1 : forall k, i < k -> zn buf1 k = zn buf k).
  { intros k Hk. unfold buf1. rewrite zn_blit by lia. replace ((i - len + 1 <=? k) && (k <? i - len + 1 + zlen w')) with false by lia. reflexivity. }
  rewrite get_ok by lia. mret. pose proof (uok_zn buf1 (i + 1) UB1) as Bx. set (x := zn buf1 (i + 1)) in *. clearbody x.
  rewrite as_i32_id by (clear - Hc; unfold base in *; lia). rewrite i32_ok by (clear - Bx Hc; unfold base in *; lia). mret. rewrite i32_ok by (clear - Bx Hc Hb; unfold base in *; lia). mret.
  assert (EB : exists buf2, (if b + (x - c) =? -1 then '(buf0, _) <- negate_units m (Z.to_nat len) buf1 (i - len + 1) 0 ;; Ret buf0 else Ret buf1) = Ret buf2
     /\ uok buf2 /\ zlen buf2 = 18 /\ forall k, i < k -> zn buf2 k = zn buf k).
  { destruct (Z.eqb_spec (b + (x - c)) (-1)) as [B|B].
    - destruct (negate_any m (Z.to_nat len) buf1 (i - len + 1) 0 UB1 ltac:(lia) ltac:(lia) ltac:(lia)) as (buf2 & b' & E & U' & L' & K'). rewrite E. mret.
      exists buf2. split; [reflexivity|]. split; [exact U'|]. split; [lia|]. intros k Hk. rewrite K' by lia. apply K1, Hk.
    - exists buf1. auto. }
  destruct EB as (buf2 & -> & U' & L' & K'). mret. rewrite set_ok by lia. mret.
  assert (KZ : forall k, i < k < 18 -> zn (upd (Z.to_nat (i + 1)) 0 buf2) k = 0).
  { intros k Hk. destruct (Z.eq_dec k (i + 1)) as [->|N]; [apply zn_upd_eq; lia|]. rewrite zn_upd_ne by lia. rewrite K' by lia. apply HZ. lia. }
  destruct (IH (upd (Z.to_nat (i + 1)) 0 buf2) (i - 1)) as [(r' & E & Ur' & Lr' & K)|(p & E & NFu & NP)].
  - apply uok_upd; [exact U'|unfold base; lia].
  - rewrite zlen_upd. exact L'.
  - lia.
  - lia.
  - intros k Hk. apply KZ. lia.
  - left. exists r'. split; [exact E|]. split; [exact Ur'|]. split; [exact Lr'|]. intros _ k Hk. destruct n as [|n]; [|apply K; lia].
    cbn [long_rem] in E. injection E as <-. apply KZ. lia.
  - right. exists p. split; [exact E|]. split; [exact NFu|]. intros M X. apply (NP M). lia.
Qed.
