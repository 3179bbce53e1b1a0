(** * The remainder: its loops. *)
From Coq Require Import ZArith List Bool Lia.
From Coq Require Import ZifyBool ZifyNat.
From Verif Require Import Rust Tables Model_Base Model_Cmp Model_Arith Spec Lib Cmp AddSub Sign Mul DivBasics Div Div2 Div3.
Import ListNotations.
Open Scope Z_scope.
Ltac Zify.zify_post_hook ::= Z.div_mod_to_equations.

(** Multiply and subtract, for any divisor. *)
Lemma mul_sub_zip_ok m q : 0 <= q < base -> forall w b2 c b, uok w -> uok b2 -> zlen w = zlen b2 -> 0 <= c < base -> -1 <= b <= 0 ->
  exists w' c' b', mul_sub_zip m q w b2 c b = Ret (w', c', b') /\ uok w' /\ zlen w' = zlen w /\ 0 <= c' < base /\ -1 <= b' <= 0 /\
    sg w' 0 (zlen w) = sg w 0 (zlen w) - q * sg b2 0 (zlen w) - c + b + base ^ zlen w * (c' - b').
Proof.
  intros Hq. induction w as [|x w IH]; intros b2 c b U U2 L Hc Hb.
  - exists [], c, b. cbn [mul_sub_zip]. change (zlen []) with 0. rewrite !sg_nil by lia. rewrite Z.pow_0_r.
    split; [destruct b2; reflexivity|]. split; [constructor|]. split; [reflexivity|]. split; [exact Hc|]. split; [exact Hb|]. clear. ring.
  - destruct b2 as [|d b2]; [rewrite zlen_cons in L; change (zlen []) with 0 in L; pose proof (zlen_nonneg w); lia|].
    rewrite !zlen_cons in L. apply uok_cons in U. destruct U as [Hx U]. apply uok_cons in U2. destruct U2 as [Hd U2].
    cbn [mul_sub_zip]. pose proof (step_bounds q d 0 c Hq Hd ltac:(unfold base; lia) Hc) as B. pose proof (step_bounds q d 0 0 Hq Hd ltac:(unfold base; lia) ltac:(unfold base; lia)) as B'.
    rewrite !Z.add_0_r in *. rewrite base2 in *. rewrite i64_ok by (clear - B'; lia). mret. rewrite i64_ok by (clear - B; lia). mret.
    set (v := q * d + c) in *. assert (Dv : v = q * d + c) by reflexivity. clearbody v.
    change UNIT with base. rewrite i64_div_ok by (clear - B; unfold base in *; lia). mret.
    pose proof (Z.div_mod v base ltac:(unfold base; lia)) as Dm. pose proof (Z.mod_pos_bound v base ltac:(reflexivity)) as Hm.
    rewrite i64_ok by (clear - B Dm Hm; unfold base in *; lia). mret. rewrite i64_ok by (clear - B Dm Hm; unfold base in *; lia). mret.
    replace (v - v / base * base) with (v mod base) by (clear - Dm; lia). rewrite as_i32_id by (clear - Hm; unfold base in *; lia).
    assert (Hc1 : 0 <= v / base < base) by (clear - B; unfold base in *; lia).
    set (c1 := v / base) in *. set (v0 := v mod base) in *. clearbody c1 v0.
    destruct (sub_with_borrow_ok m x v0 b Hx Hm Hb) as (s & b1 & E & Hs & Hb1 & Es). rewrite E. mret.
    destruct (IH b2 c1 b1 U U2 ltac:(clear - L; lia) Hc1 Hb1) as (w' & c' & b' & E' & U' & L' & Hc' & Hb' & Es'). rewrite E'. mret.
    exists (s :: w'), c', b'. split; [reflexivity|]. split; [apply uok_cons; split; assumption|].
    rewrite !zlen_cons. split; [lia|]. split; [exact Hc'|]. split; [exact Hb'|].
    pose proof (zlen_nonneg w). rewrite !sg_cons_list by lia. replace (1 + zlen w) with (zlen w + 1) by lia. rewrite base_S by lia. rewrite Es'.
    clear - Es Dv Dm. set (P := base ^ zlen w) in *. set (s1 := sg w 0 (zlen w)) in *. set (s2 := sg b2 0 (zlen w)) in *. clearbody P s1 s2.
    replace s with (x - v0 + b - base * b1) by (clear - Es; lia). replace v0 with (q * d + c - base * c1) by (clear - Dv Dm; lia). ring.
Qed.

Lemma sg_sub l a n : 0 <= a -> 0 <= n -> a + n <= zlen l -> sg (firstn (Z.to_nat n) (skipn (Z.to_nat a) l)) 0 n = sg l a n.
Proof.
  intros A N L. apply sg_ext. intros k K. replace n with (a + n - a) by lia. rewrite zn_sub by lia. f_equal; lia.
Qed.
Lemma sg_blit_in l a s : 0 <= a -> a + zlen s <= zlen l -> sg (blit l a s) a (zlen s) = sg s 0 (zlen s).
Proof.
  intros A L. apply sg_ext. intros k K. rewrite zn_blit by lia. replace ((a <=? a + k) && (a + k <? a + zlen s)) with true by lia. f_equal. lia.
Qed.

Lemma mod_mod_mul x m k : 0 < m -> 0 < k -> (x mod (m * k)) mod m = x mod m.
Proof.
  intros M K. rewrite Z.rem_mul_r by lia. rewrite Z.mul_comm, Z.mod_add by lia. apply Z.mod_mod. lia.
Qed.

(** The guess of the quotient unit [s] is right; and it does not trip the assertion. *)
Definition trial_ok (V Bn len D s : Z) : Prop :=
  V mod (Bn * base ^ (s + 1)) / base ^ (s + len - 2) / D = V mod (Bn * base ^ (s + 1)) / (Bn * base ^ s).
Definition trial_small (V Bn len d0 s : Z) : Prop := V mod (Bn * base ^ (s + 1)) / base ^ (s + len - 1) < d0 * base.
Definition top_two (Bn len D : Z) : Prop := Bn / base ^ (len - 2) = D.
Definition mod_eq (x V M : Z) : Prop := x = V mod M.
Definition div_eq (x V M : Z) : Prop := V / M = x.

Lemma div_sg l k n N : uok l -> 0 <= k -> 0 <= n -> k + n <= N -> sg l 0 N < base ^ (k + n) -> div_eq (sg l k n) (sg l 0 N) (base ^ k).
Proof.
  intros U K N' L B. replace N with (k + (n + (N - k - n))) in * by lia. rewrite sg_app in * by lia. rewrite (sg_app l (0 + k)) in * by lia.
  pose proof (sg_bound l 0 k U K) as B0. pose proof (sg_nonneg l (0 + k) n U) as G1. pose proof (sg_nonneg l (0 + k + n) (N - k - n) U) as G2.
  rewrite (base_pow_split k n) in B by lia. pose proof (pow_base_pos k K) as G3. pose proof (pow_base_pos n N') as G4.
  unfold div_eq. set (z := sg l (0 + k + n) (N - k - n)) in *. clearbody z.
  assert (Z0 : ~ 1 <= z).
  { intros Z1. clear - B Z1 B0 G1 G3 G4. set (P := base ^ k) in *. set (R := base ^ n) in *. clearbody P R.
    assert (R * 1 <= R * z) by (apply Z.mul_le_mono_nonneg_l; lia). assert (P * (R * 1) <= P * (R * z)) by (apply Z.mul_le_mono_nonneg_l; lia).
    assert (0 <= P * sg l (0 + k) n) by (apply Z.mul_nonneg_nonneg; lia). lia. }
  assert (z = 0) as -> by (clear - Z0 G2; lia).
  rewrite Z.mul_0_r, Z.add_0_r. rewrite (Z.mul_comm (base ^ k)), Z.div_add by (clear - G3; lia). rewrite (Z.div_small (sg l 0 k)) by exact B0. reflexivity.
Qed.

(** ** The main loop *)
Section loop.
  Variables (m : build) (d0 d1 : Z) (b2 : list Z) (len Bn : Z).
  Hypothesis H0 : base <= 4 * d0.
  Hypothesis H0' : d0 < base.
  Hypothesis H1 : 0 <= d1 < base.
  Hypothesis U2 : uok b2.
  Hypothesis L2 : zlen b2 = len.
  Hypothesis Hlen : 2 <= len.
  Hypothesis EB : sg b2 0 len = Bn.
  Let D := d0 * base + d1.
  Hypothesis ED : top_two Bn len D.

  Lemma long_rem_ok n : forall buf V, uok buf -> zlen buf = 18 -> len + Z.of_nat n <= 18 ->
    V = sg buf 0 18 -> V < Bn * base ^ Z.of_nat n ->
    (forall s, 0 <= s < Z.of_nat n -> trial_ok V Bn len D s) ->
    (m = Debug -> forall s, 0 <= s < Z.of_nat n -> trial_small V Bn len d0 s) ->
    exists buf', long_rem m n b2 len d0 d1 buf (len - 2 + Z.of_nat n) = Ret buf' /\ uok buf' /\ zlen buf' = 18 /\ mod_eq (sg buf' 0 18) V Bn.
  Proof.
    assert (HD : 0 < D) by (unfold D; clear - H0 H1; unfold base in *; lia).
    assert (HB : 0 < Bn).
    { pose proof (pow_base_pos (len - 2) ltac:(lia)). pose proof (Z.mul_div_le Bn (base ^ (len - 2)) H). unfold top_two in ED. rewrite ED in *. clear - H H2 HD.
      assert (0 < base ^ (len - 2) * D) by (apply Z.mul_pos_pos; lia). lia. }
    assert (HB' : Bn < base ^ len) by (rewrite <- EB; apply sg_bound; [exact U2|lia]).
    clear ED.
    induction n as [|n IH]; intros buf V U L Hn EVd HV HQ HDbg.
    - exists buf. cbn [long_rem]. split; [reflexivity|]. split; [exact U|]. split; [exact L|]. rewrite Z.pow_0_r, Z.mul_1_r in HV.
      unfold mod_eq. rewrite <- EVd. symmetry. apply Z.mod_small. split; [rewrite EVd; apply sg_nonneg, U|exact HV].
    - cbn [long_rem]. replace (Z.of_nat (S n)) with (Z.of_nat n + 1) in * by (clear; lia).
      assert (S0 : 0 <= Z.of_nat n) by (clear; lia). revert IH Hn HV HQ HDbg S0. generalize (Z.of_nat n). intros s IH Hn HV HQ HDbg S0.
      assert (Ei : exists i, i = len - 1 + s) by eauto. destruct Ei as [i Ei]. replace (len - 2 + (s + 1)) with i by (clear - Ei; lia).
      assert (Hi : i + 1 < 18) by lia.
      assert (V0 : 0 <= V) by (rewrite EVd; apply sg_nonneg, U).
      assert (VB : V < base ^ (i + 2)).
      { apply Z.lt_trans with (Bn * base ^ (s + 1)); [exact HV|]. replace (i + 2) with (len + (s + 1)) by (clear - Ei; lia). rewrite (base_pow_split len (s + 1)) by (clear - Hlen S0; lia).
        apply Z.mul_lt_mono_pos_r; [apply pow_base_pos; clear - S0; lia|exact HB']. }
      pose proof (HQ s ltac:(clear - S0; lia)) as Q. unfold trial_ok in Q. rewrite (Z.mod_small V) in Q by (split; assumption).
      pose proof (pow_base_pos s S0) as Ps.
      assert (XQ : exists q, div_eq q V (Bn * base ^ s)) by (eexists; reflexivity). destruct XQ as [q XQ]. unfold div_eq in XQ. rewrite XQ in Q.
      assert (Hq : 0 <= q < base).
      { rewrite <- XQ. split; [apply Z.div_pos; [exact V0|apply Z.mul_pos_pos; assumption]|]. apply Z.div_lt_upper_bound; [apply Z.mul_pos_pos; assumption|].
        rewrite base_S in HV by exact S0. clear - HV. replace (Bn * base ^ s * base) with (Bn * (base * base ^ s)) by ring. exact HV. }
      (* the guess *)
      assert (E1 : V / base ^ i = zn buf (i + 1) * base + zn buf i).
      { rewrite EVd. rewrite (div_sg buf i 2 18) by (try exact U; try (rewrite <- EVd; exact VB); clear - Ei Hi Hlen S0; lia). change 2 with (1 + 1). rewrite sg_cons by lia. rewrite sg_1. clear. ring. }
      assert (E2 : V / base ^ (s + len - 2) = (zn buf (i + 1) * base + zn buf i) * base + dg buf (i - 1)).
      { clear E1 Q XQ HQ HDbg. replace (s + len - 2) with (i - 1) by lia. rewrite EVd. rewrite (div_sg buf (i - 1) 3 18) by (try exact U; try (rewrite <- EVd; replace (i - 1 + 3) with (i + 2) by (clear; lia); exact VB); clear - Ei Hi Hlen S0; lia).
        change 3 with (1 + (1 + 1)). rewrite !sg_cons by lia. rewrite sg_1. unfold dg. replace (i - 1 <? 0) with false by (clear - Ei Hlen S0; lia).
        replace (i - 1 + 1) with i by (clear; lia). clear. ring. }
      rewrite E2 in Q.
      assert (HR : zn buf (i + 1) * base + zn buf i < D).
      { pose proof (dg_bound buf (i - 1) U) as Bg. set (R := zn buf (i + 1) * base + zn buf i) in *. clearbody R. clear - Q Hq Bg HD.
        pose proof (Z.mul_succ_div_gt (R * base + dg buf (i - 1)) D HD) as X. rewrite Q in X.
        clear Q. assert (R * base + dg buf (i - 1) < D * base); [|unfold base in *; lia].
        assert (D * Z.succ q <= D * base) by (apply Z.mul_le_mono_nonneg_l; lia). lia. }
      assert (HR' : m = Debug -> zn buf (i + 1) * base + zn buf i < d0 * base).
      { intros M. rewrite <- E1. specialize (HDbg M s ltac:(clear - S0; lia)). unfold trial_small in HDbg. rewrite (Z.mod_small V) in HDbg by (split; assumption).
        replace (s + len - 1) with i in HDbg by (clear - Ei; lia). exact HDbg. }
      assert (I0 : 0 <= i) by (clear - Ei Hlen S0; lia).
      assert (GG : guess_qhat m buf i d0 d1 = Ret q).
      { rewrite <- Q. apply (guess_ok m d0 d1 H0 H0' H1 buf i U I0); rewrite ?L; try assumption; clear - Hi; lia. }
      rewrite GG. mret. clear Q HR HR' E1 E2 GG.
      (* multiply and subtract *)
      assert (HQ' : forall t, 0 <= t < s -> trial_ok V Bn len D t) by (intros t T; apply HQ; clear - T; lia).
      assert (HD' : m = Debug -> forall t, 0 <= t < s -> trial_small V Bn len d0 t) by (intros M t T; apply (HDbg M); clear - T; lia). clear HQ HDbg.
      replace (i - len + 1) with s by (clear - Ei; lia). rewrite slice_ok by (clear - Ei Hi Hlen S0 L; lia). mret.
      set (w := firstn (Z.to_nat (i + 1 - s)) (skipn (Z.to_nat s) buf)).
      assert (Lw : zlen w = len) by (unfold w; rewrite zlen_sub by (clear - Ei Hi Hlen S0 L; lia); clear - Ei; lia).
      assert (Uw : uok w) by (apply uok_sub, U).
      assert (Ew : sg w 0 len = sg buf s len) by (unfold w; replace (i + 1 - s) with len by (clear - Ei; lia); apply sg_sub; clear - Ei Hi Hlen S0 L; lia).
      clearbody w.
      destruct (mul_sub_zip_ok m q Hq w b2 0 0 Uw U2 ltac:(clear - Lw L2; lia) ltac:(unfold base; clear; lia) ltac:(clear; lia)) as (w' & c & b & E & U' & L' & Hc & Hb & Es).
      rewrite E. mret. rewrite Lw in *. rewrite write_slice_ok by (clear - Ei Hi Hlen S0 L L'; lia). mret. clear E.
      set (bf := blit buf s w'). assert (Lbf : zlen bf = 18) by (unfold bf; rewrite zlen_blit by (clear - Ei Hi Hlen S0 L L'; lia); exact L).
      assert (Ubf : uok bf) by (apply uok_blit; assumption).
      assert (Wbf : forall k, 0 <= k -> ~ (s <= k < s + len) -> zn bf k = zn buf k).
      { intros k K NK. unfold bf. rewrite zn_blit by (clear - Ei Hi Hlen S0 L L' K; lia). replace ((s <=? k) && (k <? s + zlen w')) with false by (clear - NK L'; lia). reflexivity. }
      assert (Sbf : sg bf s len = sg w' 0 len) by (unfold bf; rewrite <- L'; apply sg_blit_in; clear - Ei Hi Hlen S0 L L'; lia).
      clearbody bf.
      rewrite get_ok by (clear - I0 Hi Lbf; lia). mret. rewrite (Wbf (i + 1)) by (clear - Ei I0; lia).
      pose proof (uok_zn buf (i + 1) U) as Bx.
      assert (ET : V / base ^ s = sg buf s len + base ^ len * zn buf (i + 1)).
      { rewrite EVd. rewrite (div_sg buf s (len + 1) 18) by (try exact U; try (rewrite <- EVd; replace (s + (len + 1)) with (i + 2) by (clear - Ei; lia); exact VB); clear - Ei Hi Hlen S0; lia).
        rewrite sg_snoc by (clear - Hlen; lia). replace (s + len) with (i + 1) by (clear - Ei; lia). reflexivity. }
      set (x := zn buf (i + 1)) in *. clearbody x.
      rewrite as_i32_id by (clear - Hc; unfold base in *; lia). rewrite i32_ok by (clear - Hc Bx; unfold base in *; lia). mret.
      rewrite i32_ok by (clear - Hc Bx Hb; unfold base in *; lia). mret.
      assert (EV : V = base ^ s * (sg buf s len + base ^ len * x) + sg buf 0 s).
      { rewrite <- ET. rewrite (Z.div_mod V (base ^ s)) at 1 by (clear - Ps; lia). f_equal. rewrite EVd.
        replace 18 with (s + (18 - s)) by (clear; lia). rewrite sg_app by (clear - S0 Hi Ei Hlen; lia).
        rewrite (Z.mul_comm (base ^ s)), Z.mod_add by (clear - Ps; lia). apply Z.mod_small, sg_bound; [exact U|exact S0]. }
      pose proof (sg_bound buf 0 s U S0) as Blo.
      assert (EQ : 0 <= sg buf s len + base ^ len * x - q * Bn < Bn).
      { rewrite <- ET. assert (QQ : q = V / base ^ s / Bn) by (rewrite <- XQ; rewrite Z.mul_comm, <- Z.div_div by (clear - Ps HB; lia); reflexivity).
        rewrite QQ. set (t := V / base ^ s) in *. clearbody t. clear - HB. pose proof (Z.div_mod t Bn ltac:(lia)) as H. pose proof (Z.mod_pos_bound t Bn HB) as H2.
        set (tq := t / Bn) in *. set (tr := t mod Bn) in *. clearbody tq tr. lia. }
      clear ET XQ.
      assert (ZB : b + (x - c) = 0 /\ sg w' 0 len = sg buf s len + base ^ len * x - q * Bn).
      { rewrite EB, Ew in Es. pose proof (sg_bound w' 0 len U' ltac:(clear - Hlen; lia)) as Bw. rewrite Es in Bw |- *. clear - EQ Bw HB'.
        set (P := base ^ len) in *. set (y := sg buf s len) in *. set (t := q * Bn) in *. clearbody P y t.
        assert (X : P * (c - b - x) = (y - t - 0 + 0 + P * (c - b)) - (y + P * x - t)) by ring.
        assert (Y : - P < P * (c - b - x) < P) by lia. assert (c - b - x = 0) by (clear - Y EQ HB'; nia).
        split; [lia|]. replace (c - b) with x by lia. ring. }
      destruct ZB as [ZB Ew']. replace (b + (x - c) =? -1) with false by (rewrite ZB; reflexivity). mret.
      rewrite set_ok by (clear - I0 Hi Lbf; lia). mret. set (bf' := upd (Z.to_nat (i + 1)) 0 bf).
      assert (Lbf' : zlen bf' = 18) by (unfold bf'; rewrite zlen_upd; exact Lbf).
      assert (Ubf' : uok bf') by (apply uok_upd; [exact Ubf|unfold base; clear; lia]).
      assert (PBs : 0 < Bn * base ^ s) by (apply Z.mul_pos_pos; assumption).
      assert (EM : V mod (Bn * base ^ s) = base ^ s * (sg buf s len + base ^ len * x - q * Bn) + sg buf 0 s).
      { symmetry. apply (Z.mod_unique _ _ q).
        - left. clear - EQ Blo Ps. set (P := base ^ s) in *. set (y := sg buf s len + base ^ len * x - q * Bn) in *. set (t := sg buf 0 s) in *. clearbody P y t.
          split; [assert (0 <= P * y) by (apply Z.mul_nonneg_nonneg; lia); lia|].
          assert (P * y <= P * (Bn - 1)) by (apply Z.mul_le_mono_nonneg_l; lia). replace (Bn * P) with (P * (Bn - 1) + P) by ring. lia.
        - rewrite EV at 1. clear. ring. }
      assert (V' : V mod (Bn * base ^ s) = sg bf' 0 18).
      { rewrite EM. clear EM. replace 18 with (s + (len + (18 - s - len))) by (clear; lia). rewrite !sg_app by (clear - S0 Hi Ei Hlen; lia). replace (0 + s) with s by (clear; lia).
        unfold bf'. rewrite (sg_upd_out bf 0 s), (sg_upd_out bf s len) by (clear - S0 Hi Ei Hlen Lbf; lia). rewrite Sbf, Ew'.
        rewrite (sg_ext bf buf 0 0 s) by (intros k K; apply Wbf; clear - K; lia).
        rewrite (sg_0 _ (s + len)); [clear; ring|]. intros k K. rewrite zn_upd by (clear - S0 Hi Ei Hlen Lbf K; lia). destruct (Z.eqb_spec k (i + 1)) as [->|NK]; [reflexivity|].
        rewrite Wbf by (clear - K S0 Hlen; lia). apply (sg_zero_inv buf (i + 2) (16 - i) U); [|clear - K NK Ei; lia].
        pose proof (sg_nonneg buf (i + 2) (16 - i) U) as G1. pose proof (sg_nonneg buf 0 (i + 2) U) as G2. pose proof (pow_base_pos (i + 2) ltac:(clear - I0; lia)) as G3.
        assert (G4 : V = sg buf 0 (i + 2) + base ^ (i + 2) * sg buf (i + 2) (16 - i)).
        { rewrite EVd. replace 18 with (i + 2 + (16 - i)) at 1 by (clear; lia). rewrite sg_app by (clear - I0 Hi; lia). reflexivity. }
        clear - G1 G2 G3 G4 VB. nia. }
      assert (MM : forall t, 0 <= t < s -> V mod (Bn * base ^ s) mod (Bn * base ^ (t + 1)) = V mod (Bn * base ^ (t + 1))).
      { intros t T. replace (Bn * base ^ s) with (Bn * base ^ (t + 1) * base ^ (s - t - 1)).
        - apply mod_mod_mul; [apply Z.mul_pos_pos; [exact HB|apply pow_base_pos; clear - T; lia]|apply pow_base_pos; clear - T; lia].
        - rewrite <- Z.mul_assoc, <- base_pow_split by (clear - T; lia). do 2 f_equal. clear. lia. }
      clear EM.
      destruct (IH bf' (V mod (Bn * base ^ s)) Ubf' Lbf' ltac:(clear - Hn; lia) V') as (buf' & E' & Y1 & Y2 & Y3).
      + apply Z.mod_pos_bound, PBs.
      + intros t T. unfold trial_ok. rewrite MM by exact T. apply HQ'. exact T.
      + intros M t T. unfold trial_small. rewrite MM by exact T. apply HD'; assumption.
      + exists buf'. replace (i - 1) with (len - 2 + s) by (clear - Ei; lia). split; [exact E'|]. split; [exact Y1|]. split; [exact Y2|].
        unfold mod_eq in *. rewrite Y3. apply mod_mod_mul; assumption.
  Qed.
End loop.

(** ** Dividing by the normalization factor, copying, finishing *)

(** [k] is the index of the leading unit of [M]. *)
Definition lead_num (M k : Z) : Prop := (M = 0 /\ k < 0) \/ (0 <= k /\ base ^ k <= M < base ^ (k + 1)).

Lemma div_shift u P lo d : 0 < d -> 0 <= lo < P -> 0 <= u -> (u * P + lo) / d = u / d * P + ((u mod d) * P + lo) / d /\ (u * P + lo) mod d = ((u mod d) * P + lo) mod d.
Proof.
  intros Hd HL Hu. pose proof (Z.div_mod u d ltac:(lia)) as E. set (q := u / d) in *. set (r := u mod d) in *. clearbody q r. subst u.
  replace ((d * q + r) * P + lo) with ((r * P + lo) + q * P * d) by ring. rewrite Z.div_add, Z.mod_add by lia. split; [ring|reflexivity].
Qed.

Lemma denorm_ok m buf nf : uok buf -> 1 <= nf < base -> forall n rem r nz, Z.of_nat n <= zlen buf -> 0 <= rem < nf -> uok r -> zlen r = 9 ->
  (forall k, 0 <= k < Z.of_nat n -> zn r k = 0) -> forall T, T = rem * base ^ Z.of_nat n + sg buf 0 (Z.of_nat n) -> T < nf * base ^ 9 ->
  exists r' nz', denorm m n buf nf rem r nz = Ret (r', T mod nf, nz') /\ uok r' /\ zlen r' = 9 /\ sg r' 0 9 = sg r 0 9 + T / nf /\
    (0 <= nz -> nz' = nz) /\ (nz < 0 -> lead_num (T / nf) nz').
Proof.
  intros U Hnf. induction n as [|n IH]; intros rem r nz Ln Hrem Ur Lr Zr T ET HT.
  - cbn [Z.of_nat] in ET. rewrite sg_nil, Z.pow_0_r in ET by lia. replace T with rem by lia. rewrite Z.mod_small, Z.div_small by lia.
    exists r, nz. split; [reflexivity|]. split; [exact Ur|]. split; [exact Lr|]. split; [lia|]. split; [auto|]. left. auto.
  - cbn [denorm]. assert (S0 : 0 <= Z.of_nat n) by lia. assert (Sn : Z.of_nat (S n) = Z.of_nat n + 1) by lia. rewrite Sn in *. clear Sn.
    revert IH Ln Zr T ET HT S0. generalize (Z.of_nat n). intros s IH Ln Zr T ET HT S0.
    pose proof (uok_zn buf s U) as Bx. rewrite sg_snoc in ET by lia. replace (0 + s) with s in ET by lia. set (x := zn buf s) in *.
    pose proof (sg_bound buf 0 s U S0) as Blo. pose proof (pow_base_pos s S0) as Ps. rewrite base_S in ET by lia.
    change UNIT with base. rewrite i64_ok by (clear - Hrem Hnf; unfold base in *; lia). mret. rewrite get_ok by lia. mret. fold x. clearbody x.
    rewrite i64_ok by (clear - Hrem Hnf Bx; unfold base in *; lia). mret.
    set (u := rem * base + x) in *. assert (Eu : u = rem * base + x) by reflexivity.
    assert (Bu : 0 <= u < nf * base) by (clear - Hrem Bx Eu; clearbody u; unfold base in *; lia).
    assert (ET' : T = u * base ^ s + sg buf 0 s) by (rewrite ET, Eu; ring). clear ET.
    assert (U0 : u = 0 -> rem = 0) by (clear - Eu Hrem Bx; clearbody u; unfold base in *; lia). clearbody u. clear Eu. set (lo := sg buf 0 s) in *. set (P := base ^ s) in *.
    pose proof (div_shift u P lo nf ltac:(lia) Blo ltac:(lia)) as [DS1 DS2]. rewrite <- ET' in DS1, DS2.
    assert (Hr' : 0 <= u mod nf < nf) by (apply Z.mod_pos_bound; lia).
    assert (Hq : 0 <= u / nf < base) by (split; [apply Z.div_pos; lia|apply Z.div_lt_upper_bound; lia]).
    pose proof (Z.div_mod u nf ltac:(lia)) as Du.
    set (T' := (u mod nf) * P + lo) in *.
    assert (HT' : T' <= T).
    { rewrite ET'. unfold T'. clear - Du Hq Hr' Ps Hnf Bu. set (q := u / nf) in *. set (r := u mod nf) in *. clearbody q r. subst u.
      assert (0 <= nf * q * P) by (apply Z.mul_nonneg_nonneg; [apply Z.mul_nonneg_nonneg|]; lia). lia. }
    assert (T0 : 0 <= T') by (unfold T'; clear - Hr' Ps Blo; assert (0 <= u mod nf * P) by (apply Z.mul_nonneg_nonneg; lia); lia).
    assert (BT : T' / nf < P).
    { apply Z.div_lt_upper_bound; [lia|]. unfold T'. clear - Hr' Blo. set (r := u mod nf) in *. clearbody r. assert (r * P <= (nf - 1) * P) by (apply Z.mul_le_mono_nonneg_r; lia). lia. }
    assert (BT0 : 0 <= T' / nf) by (apply Z.div_pos; [exact T0|clear - Hnf; lia]).
    destruct (Z.eqb_spec u 0) as [Z0|Z0].
    { rewrite (U0 Z0). rewrite Z0 in *. clear U0. rewrite Z.mod_0_l, Z.div_0_l in * by lia.
      destruct (IH 0 r nz ltac:(lia) ltac:(lia) Ur Lr ltac:(intros k K; apply Zr; lia) T ltac:(rewrite ET'; fold P lo; ring) HT) as (r' & nz' & E & Y1 & Y2 & Y3 & Y4 & Y5).
      exists r', nz'. split; [exact E|]. auto. }
    rewrite i64_div_ok by (clear - Bu Hnf; unfold base in *; nia). mret.
    assert (Bqn : 0 <= u / nf * nf <= u) by (clear - Hq Hnf Du Hr'; set (q := u / nf) in *; set (r := u mod nf) in *; clearbody q r; nia).
    assert (Bu' : u < base * base) by (clear - Bu Hnf; unfold base in *; nia).
    assert (Em : u - u / nf * nf = u mod nf) by (clear - Du; set (q := u / nf) in *; set (r := u mod nf) in *; clearbody q r; lia).
    rewrite i64_ok by (clear - Bqn Bu'; set (t := u / nf * nf) in *; clearbody t; unfold base in *; lia). mret.
    rewrite Em. rewrite i64_ok by (clear - Hr' Hnf; set (t := u mod nf) in *; clearbody t; unfold base in *; lia). mret.
    assert (HT2 : T' < nf * base ^ 9) by (clear - HT HT'; lia).
    assert (Hn' : s <= zlen buf) by (clear - Ln; lia). rewrite DS1, DS2.
    set (q := u / nf) in *. set (rm := u mod nf) in *. assert (ETT : T' = rm * P + lo) by reflexivity. clearbody q rm T'. clear Du Em Bqn.
    set (t := T' / nf) in *. assert (Et : T' / nf = t) by reflexivity. clearbody t.
    destruct (Z.gtb_spec q 0) as [G|G].
    + assert (S9 : s < 9).
      { assert (P < base ^ 9); [|apply (Z.pow_lt_mono_r_iff base); [reflexivity|clear; lia|assumption]].
        assert (T / nf < base ^ 9) by (apply Z.div_lt_upper_bound; [clear - Hnf; lia|exact HT]). rewrite DS1 in H.
        clear - H G BT0 Ps. assert (1 * P <= q * P) by (apply Z.mul_le_mono_nonneg_r; lia). lia. }
      rewrite set_ok by (clear - S9 S0 Lr; lia). mret. rewrite as_i32_id by (clear - Hq; unfold base in *; lia).
      assert (Er : sg (upd (Z.to_nat s) q r) 0 9 = sg r 0 9 + P * q).
      { apply sg_upd_zero; [clear - S9 S0; lia|clear - Lr; lia|apply Zr; clear - S0; lia]. }
      destruct (IH rm (upd (Z.to_nat s) q r) (if nz <? 0 then s else nz) Hn' Hr' ltac:(apply uok_upd; assumption) ltac:(rewrite zlen_upd; exact Lr)
        ltac:(intros k K; rewrite zn_upd_ne by (clear - K S0 S9 Lr; lia); apply Zr; clear - K; lia) T' ETT HT2) as (r' & nz' & E & Y1 & Y2 & Y3 & Y4 & Y5).
      exists r', nz'. split; [exact E|]. split; [exact Y1|]. split; [exact Y2|]. split; [rewrite Y3, Er, Et; clear; ring|].
      assert (NZ : 0 <= (if nz <? 0 then s else nz)) by (clear - S0; destruct (Z.ltb_spec nz 0); lia). specialize (Y4 NZ). clear Y5 NZ.
      split; [intros K; rewrite Y4; replace (nz <? 0) with false by (clear - K; lia); reflexivity|].
      intros K. replace (nz <? 0) with true in Y4 by (clear - K; lia). rewrite Y4. right. split; [exact S0|]. rewrite base_S by exact S0. fold P.
      clear - G Hq BT BT0 Ps. assert (1 * P <= q * P) by (apply Z.mul_le_mono_nonneg_r; lia). assert (q * P <= (base - 1) * P) by (apply Z.mul_le_mono_nonneg_r; lia). lia.
    + assert (q = 0) as -> by (clear - G Hq; lia). rewrite Z.mul_0_l, Z.add_0_l.
      destruct (IH rm r nz Hn' Hr' Ur Lr ltac:(intros k K; apply Zr; clear - K; lia) T' ETT HT2) as (r' & nz' & E & Y1 & Y2 & Y3 & Y4 & Y5).
      exists r', nz'. rewrite Et in *. auto 10.
Qed.

Lemma copy_rest_ok buf : uok buf -> forall n r nz, Z.of_nat n <= zlen buf -> uok r -> Z.of_nat n <= zlen r ->
  exists r' nz', copy_rest n buf r nz = Ret (r', nz') /\ wrote r r' 0 (Z.of_nat n) /\ sg r' 0 (Z.of_nat n) = sg buf 0 (Z.of_nat n) /\
    (0 <= nz -> nz' = nz) /\ (nz < 0 -> lead_num (sg buf 0 (Z.of_nat n)) nz').
Proof.
  intros U. induction n as [|n IH]; intros r nz Ln Ur Lr.
  - exists r, nz. split; [reflexivity|]. split; [apply wrote_refl, Ur|]. split; [rewrite !sg_nil by lia; reflexivity|]. split; [auto|]. left. split; [apply sg_nil; lia|assumption].
  - cbn [copy_rest]. rewrite get_ok by lia. mret. rewrite set_ok by lia. mret. pose proof (uok_zn buf (Z.of_nat n) U) as Bv.
    set (v := zn buf (Z.of_nat n)) in *. assert (W0 : wrote r (upd (Z.to_nat (Z.of_nat n)) v r) (Z.of_nat n) 1) by (apply wrote_upd; try assumption; lia).
    set (nz1 := if (v >? 0) && (nz <? 0) then Z.of_nat n else nz).
    destruct (IH (upd (Z.to_nat (Z.of_nat n)) v r) nz1 ltac:(lia) ltac:(apply W0) ltac:(rewrite zlen_upd; lia)) as (r' & nz' & E & W & Es & Y1 & Y2).
    exists r', nz'. split; [exact E|]. replace (Z.of_nat (S n)) with (Z.of_nat n + 1) by lia.
    split; [eapply wrote_trans; [exact W0|exact W|lia..]|]. rewrite !sg_snoc by lia. replace (0 + Z.of_nat n) with (Z.of_nat n) by lia. fold v.
    split; [rewrite Es; f_equal; f_equal; destruct W as (_ & _ & F); rewrite F by lia; apply zn_upd_eq; lia|].
    pose proof (sg_bound buf 0 (Z.of_nat n) U ltac:(lia)) as Blo. pose proof (pow_base_pos (Z.of_nat n) ltac:(lia)) as Ps.
    split; [intros K; unfold nz1 in Y1; replace (nz <? 0) with false in Y1 by lia; rewrite andb_false_r in Y1; apply Y1; exact K|].
    intros K. destruct (Z.gtb_spec v 0) as [G|G].
    + assert (N1 : nz1 = Z.of_nat n) by (unfold nz1; replace (nz <? 0) with true by lia; replace (v >? 0) with true by lia; reflexivity).
      rewrite Y1 by lia. rewrite N1. right. split; [lia|]. rewrite base_S by lia. clear - G Bv Blo Ps. clearbody v. set (P := base ^ Z.of_nat n) in *. clearbody P.
      assert (P * 1 <= P * v) by (apply Z.mul_le_mono_nonneg_l; lia). assert (P * v <= P * (base - 1)) by (apply Z.mul_le_mono_nonneg_l; lia). lia.
    + assert (N1 : nz1 = nz) by (unfold nz1; replace (v >? 0) with false by lia; reflexivity). assert (Hv : v = 0) by lia. rewrite Hv, Z.mul_0_r, Z.add_0_r. apply Y2. lia.
Qed.

Lemma short_rem_ok m buf d : uok buf -> 0 < d < base -> forall n rem i, 0 <= i + 1 - Z.of_nat n -> i < zlen buf -> 0 <= rem < d ->
  short_rem m n buf d rem i = Ret ((rem * base ^ Z.of_nat n + sg buf (i + 1 - Z.of_nat n) (Z.of_nat n)) mod d).
Proof.
  intros U Hd. induction n as [|n IH]; intros rem i Hi Li Hrem.
  - cbn [short_rem Z.of_nat]. rewrite sg_nil, Z.pow_0_r by lia. f_equal. rewrite Z.mul_1_r, Z.add_0_r. symmetry. apply Z.mod_small. exact Hrem.
  - cbn [short_rem]. pose proof (uok_zn buf i U) as Bx. change UNIT with base.
    rewrite i64_ok by (clear - Hrem Hd; unfold base in *; lia). mret. rewrite get_ok by lia. mret.
    set (x := zn buf i) in *. rewrite i64_ok by (clear - Hrem Hd Bx; clearbody x; unfold base in *; lia). mret.
    set (u := rem * base + x) in *. assert (Bu : 0 <= u < d * base) by (unfold u; clear - Hrem Bx; clearbody x; unfold base in *; lia).
    assert (Bu' : u < base * base) by (clear - Bu Hd; unfold base in *; nia). assert (Eu : u = rem * base + x) by reflexivity. clearbody u.
    rewrite i64_div_ok by (clear - Bu Bu' Hd; unfold base in *; lia). mret.
    pose proof (Z.div_mod u d ltac:(lia)) as Du. pose proof (Z.mod_pos_bound u d ltac:(lia)) as Hr'.
    assert (Bqn : 0 <= u / d * d <= u) by (clear - Bu Hd Du Hr'; pose proof (Z.div_pos u d ltac:(lia) ltac:(lia)); set (q := u / d) in *; set (r := u mod d) in *; clearbody q r; nia).
    assert (Em : u - u / d * d = u mod d) by (clear - Du; set (q := u / d) in *; set (r := u mod d) in *; clearbody q r; lia).
    rewrite i64_ok by (clear - Bqn Bu'; set (t := u / d * d) in *; clearbody t; unfold base in *; lia). mret. rewrite Em.
    rewrite i64_ok by (clear - Hr' Hd; set (t := u mod d) in *; clearbody t; unfold base in *; lia). mret.
    rewrite IH by (try exact Hr'; clear - Hi Li; lia). f_equal.
    replace (Z.of_nat (S n)) with (Z.of_nat n + 1) by lia. replace (i - 1 + 1 - Z.of_nat n) with (i - Z.of_nat n) by lia. replace (i + 1 - (Z.of_nat n + 1)) with (i - Z.of_nat n) by lia.
    rewrite sg_snoc by lia. replace (i - Z.of_nat n + Z.of_nat n) with i by lia. fold x. rewrite base_S by lia.
    set (P := base ^ Z.of_nat n) in *. assert (HP : 0 < P) by (apply pow_base_pos; lia). set (lo := sg buf (i - Z.of_nat n) (Z.of_nat n)) in *.
    assert (Blo : 0 <= lo < P) by (apply sg_bound; [exact U|lia]).
    rewrite <- (proj2 (div_shift u P lo d ltac:(lia) Blo ltac:(lia))). f_equal. rewrite Eu. ring.
Qed.
