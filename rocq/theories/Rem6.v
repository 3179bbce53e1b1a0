(** * The remainder when only the last guess may be too large.
    The remainder left behind by a guess that is too large is negated instead of
    corrected: at the last unit this gives the distance to the next multiple. *)
From Coq Require Import ZArith List Bool Lia.
From Coq Require Import ZifyBool ZifyNat.
From Verif Require Import Rust Tables Model_Base Model_Cmp Model_Arith Spec Lib Cmp AddSub Sign Mul DivBasics Div Div2 Div3 Rem Robust Robust2 DivP.
Import ListNotations.
Open Scope Z_scope.
Ltac Zify.zify_post_hook ::= Z.div_mod_to_equations.

Section near.
  Variables (m : build) (d0 d1 : Z) (b2 : list Z) (len Bn : Z).
  Hypothesis H0 : base <= 4 * d0.
  Hypothesis H0' : d0 < base.
  Hypothesis H1 : 0 <= d1 < base.
  Hypothesis U2 : uok b2.
  Hypothesis L2 : zlen b2 = len.
  Hypothesis Hlen : 2 <= len.
  Hypothesis EB : sg b2 0 len = Bn.
  Let D := d0 * base + d1.
  Hypothesis ED : top_two Bn len D.

  (** One round with the guess [g]. *)
  Lemma rem_step n buf V g o : let s := Z.of_nat n in let i := len - 1 + s in let T := V / base ^ s in
    uok buf -> zlen buf = 18 -> i + 1 < 18 -> V = sg buf 0 18 -> V < base ^ (i + 2) ->
    0 <= g < base -> - Bn <= T - g * Bn < Bn -> guess_qhat m buf i d0 d1 = Ret g -> long_rem m (S n) b2 len d0 d1 buf i = o ->
    exists bf, uok bf /\ zlen bf = 18 /\ sg bf 0 18 = base ^ s * Z.abs (T - g * Bn) + V mod base ^ s /\ long_rem m n b2 len d0 d1 bf (i - 1) = o.
  Proof.
    intros s i T U L Hi EVd VB Hg HT GG H. assert (S0 : 0 <= s) by (unfold s; lia). assert (Ei : i = len - 1 + s) by reflexivity. cbn [long_rem] in H. rewrite GG in H. rewrite bind_Ret in H. cbv beta in H.
    clearbody s i. clear GG. pose proof (pow_base_pos s S0) as Ps.
    assert (HB' : Bn < base ^ len) by (rewrite <- EB; apply sg_bound; [exact U2|lia]). assert (I0 : 0 <= i) by (clear - Ei Hlen S0; lia).
    replace (i - len + 1) with s in H by (clear - Ei; lia). rewrite slice_ok in H by (clear - Ei Hi Hlen S0 L; lia). rewrite bind_Ret in H. cbv beta in H.
    set (w := firstn (Z.to_nat (i + 1 - s)) (skipn (Z.to_nat s) buf)) in *.
    assert (Lw : zlen w = len) by (unfold w; rewrite zlen_sub by (clear - Ei Hi Hlen S0 L; lia); clear - Ei; lia).
    assert (Uw : uok w) by (apply uok_sub, U).
    assert (Ew : sg w 0 len = sg buf s len) by (unfold w; replace (i + 1 - s) with len by (clear - Ei; lia); apply sg_sub; clear - Ei Hi Hlen S0 L; lia).
    clearbody w.
    destruct (mul_sub_zip_ok m g Hg w b2 0 0 Uw U2 ltac:(clear - Lw L2; lia) ltac:(unfold base; clear; lia) ltac:(clear; lia)) as (w' & c & b & E & U' & L' & Hc & Hb & Es).
    rewrite E in H. rewrite bind_Ret in H. cbv beta iota in H. rewrite Lw in *. rewrite write_slice_ok in H by (clear - Ei Hi Hlen S0 L L'; lia). rewrite bind_Ret in H. cbv beta in H. clear E.
    set (bf := blit buf s w') in *. assert (Lbf : zlen bf = 18) by (unfold bf; rewrite zlen_blit by (clear - Ei Hi Hlen S0 L L'; lia); exact L).
    assert (Ubf : uok bf) by (apply uok_blit; assumption).
    assert (Wbf : forall k, 0 <= k -> ~ (s <= k < s + len) -> zn bf k = zn buf k).
    { intros k K NK. unfold bf. rewrite zn_blit by (clear - Ei Hi Hlen S0 L L' K; lia). replace ((s <=? k) && (k <? s + zlen w')) with false by (clear - NK L'; lia). reflexivity. }
    assert (Sbf : sg bf s len = sg w' 0 len) by (unfold bf; rewrite <- L'; apply sg_blit_in; clear - Ei Hi Hlen S0 L L'; lia).
    clearbody bf.
    rewrite get_ok in H by (clear - I0 Hi Lbf; lia). rewrite bind_Ret in H. cbv beta in H. rewrite (Wbf (i + 1)) in H by (clear - Ei I0; lia).
    pose proof (uok_zn buf (i + 1) U) as Bx.
    assert (ET : T = sg buf s len + base ^ len * zn buf (i + 1)).
    { unfold T. rewrite EVd. rewrite (div_sg buf s (len + 1) 18) by (try exact U; try (rewrite <- EVd; replace (s + (len + 1)) with (i + 2) by (clear - Ei; lia); exact VB); clear - Ei Hi Hlen S0; lia).
      rewrite sg_snoc by (clear - Hlen; lia). replace (s + len) with (i + 1) by (clear - Ei; lia). reflexivity. }
    assert (EM : V mod base ^ s = sg buf 0 s).
    { rewrite EVd. replace 18 with (s + (18 - s)) by (clear; lia). rewrite sg_app by (clear - S0 Hi Ei Hlen; lia).
      rewrite (Z.mul_comm (base ^ s)), Z.mod_add by (clear - Ps; lia). apply Z.mod_small, sg_bound; [exact U|exact S0]. }
    assert (HI : forall k, i + 2 <= k < 18 -> zn buf k = 0).
    { intros k K. apply (sg_zero_inv buf (i + 2) (16 - i) U); [|clear - K; lia].
      pose proof (sg_nonneg buf (i + 2) (16 - i) U) as G1. pose proof (sg_nonneg buf 0 (i + 2) U) as G2. pose proof (pow_base_pos (i + 2) ltac:(clear - I0; lia)) as G3.
      assert (G4 : V = sg buf 0 (i + 2) + base ^ (i + 2) * sg buf (i + 2) (16 - i)).
      { rewrite EVd. replace 18 with (i + 2 + (16 - i)) at 1 by (clear; lia). rewrite sg_app by (clear - I0 Hi; lia). reflexivity. }
      clear - G1 G2 G3 G4 VB. nia. }
    set (x := zn buf (i + 1)) in *. clearbody x T.
    rewrite as_i32_id in H by (clear - Hc; unfold base in *; lia). rewrite i32_ok in H by (clear - Hc Bx; unfold base in *; lia). rewrite bind_Ret in H. cbv beta in H.
    rewrite i32_ok in H by (clear - Hc Bx Hb; unfold base in *; lia). rewrite bind_Ret in H. cbv beta in H.
    pose proof (sg_bound w' 0 len U' ltac:(clear - Hlen; lia)) as Bw.
    (* the borrow *)
    assert (ZB : sg w' 0 len = T - g * Bn + base ^ len * (c - b - x)).
    { rewrite Es, EB, Ew, ET. clear. ring. }
    set (e := c - b - x) in *. replace (b + (x - c)) with (- e) in H by (unfold e; clear; lia). clearbody e.
    assert (Final : forall bf1, uok bf1 -> zlen bf1 = 18 -> (forall k, 0 <= k -> ~ (s <= k < s + len) -> zn bf1 k = zn buf k) -> sg bf1 s len = Z.abs (T - g * Bn) ->
      (bf2 <- set bf1 (i + 1) 0 ;; long_rem m n b2 len d0 d1 bf2 (i - 1)) = o ->
      exists bf, uok bf /\ zlen bf = 18 /\ sg bf 0 18 = base ^ s * Z.abs (T - g * Bn) + V mod base ^ s /\ long_rem m n b2 len d0 d1 bf (i - 1) = o).
    { intros bf1 U1 L1 W1 S1 HH. rewrite set_ok in HH by (clear - I0 Hi L1; lia). rewrite bind_Ret in HH. cbv beta in HH.
      exists (upd (Z.to_nat (i + 1)) 0 bf1). split; [apply uok_upd; [exact U1|unfold base; clear; lia]|]. split; [rewrite zlen_upd; exact L1|]. split; [|exact HH].
      rewrite EM, <- S1. replace 18 with (s + (len + (18 - s - len))) by (clear; lia). rewrite !sg_app by (clear - S0 Hi Ei Hlen; lia). replace (0 + s) with s by (clear; lia).
      rewrite (sg_upd_out bf1 0 s), (sg_upd_out bf1 s len) by (clear - S0 Hi Ei Hlen L1; lia).
      rewrite (sg_ext bf1 buf 0 0 s) by (intros k K; apply W1; clear - K; lia).
      rewrite (sg_0 _ (s + len)); [clear; ring|]. intros k K. rewrite zn_upd by (clear - S0 Hi Ei Hlen L1 K; lia). destruct (Z.eqb_spec k (i + 1)) as [->|NK]; [reflexivity|].
      rewrite W1 by (clear - K S0 Hlen; lia). apply HI. clear - K NK Ei. lia. }
    destruct (Z.lt_ge_cases (T - g * Bn) 0) as [N|N].
    - assert (e = 1) as ->.
      { clear - ZB Bw N HT HB'. set (P := base ^ len) in *. set (t := T - g * Bn) in *. clearbody P t. nia. }
      change (- (1) =? -1) with true in H. cbv iota in H.
      destruct (negate_units_ok m (Z.to_nat len) bf s 0 Ubf S0 ltac:(rewrite Lbf; clear - Ei Hi Hlen; lia) ltac:(lia)) as (l' & c' & En & Wn & Hc' & Esn).
      rewrite En in H. rewrite bind_Ret in H. cbv beta iota in H. rewrite !bind_Ret in H. cbv beta in H.
      replace (Z.of_nat (Z.to_nat len)) with len in * by (clear - Hlen; lia).
      assert (SS : forall l, seg l s (Z.to_nat len) = sg l s len) by reflexivity. rewrite !SS, Sbf, ZB in Esn.
      apply (Final l'); [apply Wn|rewrite (wrote_zlen _ _ _ _ Wn); exact Lbf| | |exact H].
      + intros k K NK. destruct Wn as (_ & _ & F). rewrite F by (clear - K NK; lia). apply Wbf; assumption.
      + pose proof (sg_bound l' s len ltac:(apply Wn) ltac:(clear - Hlen; lia)) as Bl. rewrite Z.abs_neq by (clear - N; lia).
        clear - Esn Bl Hc' HT HB' N. set (P := base ^ len) in *. set (t := T - g * Bn) in *. set (v := sg l' s len) in *. clearbody P t v. assert (C : c' = -1 \/ c' = 0) by lia. destruct C as [-> | ->]; lia.
    - assert (e = 0) as ->.
      { clear - ZB Bw N HT HB'. set (P := base ^ len) in *. set (t := T - g * Bn) in *. clearbody P t. nia. }
      change (- 0 =? -1) with false in H. cbv iota in H. rewrite bind_Ret in H. cbv beta in H.
      apply (Final bf Ubf Lbf Wbf); [|exact H]. rewrite Sbf, ZB, Z.abs_eq by (clear - N; lia). clear. ring.
  Qed.

  Lemma near_pos : 0 < D /\ 0 < Bn /\ Bn < base ^ len.
  Proof.
    assert (HD : 0 < D) by (unfold D; clear - H0 H1; unfold base in *; lia). split; [exact HD|]. split.
    - pose proof (pow_base_pos (len - 2) ltac:(lia)) as X. pose proof (Z.mul_div_le Bn (base ^ (len - 2)) X) as Y. unfold top_two in ED. rewrite ED in Y. clear - X Y HD.
      assert (0 < base ^ (len - 2) * D) by (apply Z.mul_pos_pos; lia). lia.
    - rewrite <- EB. apply sg_bound; [exact U2|lia].
  Qed.

  (** The guess that is returned. *)
  Lemma near_guess s buf V g : let i := len - 1 + s in 0 <= s -> uok buf -> zlen buf = 18 -> i + 1 < 18 -> V = sg buf 0 18 -> V < base ^ (i + 2) ->
    V / base ^ (s + len - 2) / D < base -> guess_qhat m buf i d0 d1 = Ret g -> g = V / base ^ (s + len - 2) / D.
  Proof.
    intros i S0 U L Hi EVd VB HG H. destruct near_pos as (HD & _). assert (Ei : i = len - 1 + s) by reflexivity. clearbody i. assert (I0 : 0 <= i) by (clear - Ei Hlen S0; lia).
    assert (E2 : V / base ^ (s + len - 2) = (zn buf (i + 1) * base + zn buf i) * base + dg buf (i - 1)).
    { replace (s + len - 2) with (i - 1) by lia. rewrite EVd. rewrite (div_sg buf (i - 1) 3 18) by (try exact U; try (rewrite <- EVd; replace (i - 1 + 3) with (i + 2) by (clear; lia); exact VB); clear - Ei Hi Hlen S0; lia).
      change 3 with (1 + (1 + 1)). rewrite !sg_cons by lia. rewrite sg_1. unfold dg. replace (i - 1 <? 0) with false by (clear - Ei Hlen S0; lia).
      replace (i - 1 + 1) with i by (clear; lia). clear. ring. }
    rewrite E2 in HG |- *. pose proof (dg_bound buf (i - 1) U) as Bg.
    assert (HR : zn buf (i + 1) * base + zn buf i < D).
    { set (R := zn buf (i + 1) * base + zn buf i) in *. clearbody R. clear - HG Bg HD.
      pose proof (Z.mul_succ_div_gt (R * base + dg buf (i - 1)) D HD) as X. set (q := _ / D) in *. clearbody q.
      assert (D * Z.succ q <= D * base) by (apply Z.mul_le_mono_nonneg_l; lia). unfold base in *. lia. }
    assert (HR' : m = Debug -> zn buf (i + 1) * base + zn buf i < d0 * base).
    { intros M. rewrite M in H. apply (guess_debug_inv buf i d0 d1 g U I0); rewrite ?L; try assumption; try (clear - Hi; lia). clear - H0 H0'. unfold base in *. lia. }
    pose proof (guess_ok m d0 d1 H0 H0' H1 buf i U I0 ltac:(rewrite L; exact Hi) ltac:(rewrite L; clear; lia) HR HR') as G. cbv zeta in G. rewrite G in H.
    apply Ret_inj in H. symmetry. exact H.
  Qed.

  Definition last_unit (V : Z) : Z := V mod (Bn * base) / Bn.
  Definition last_guess (V : Z) : Z := V mod (Bn * base) / base ^ (len - 2) / D.

  Lemma long_rem_near n : forall buf V buf', uok buf -> zlen buf = 18 -> len + Z.of_nat n <= 18 ->
    V = sg buf 0 18 -> V < Bn * base ^ Z.of_nat n ->
    (forall s, 1 <= s < Z.of_nat n -> trial_ok V Bn len D s) ->
    last_unit V + 1 < base -> last_guess V = last_unit V \/ last_guess V = last_unit V + 1 ->
    long_rem m n b2 len d0 d1 buf (len - 2 + Z.of_nat n) = Ret buf' ->
    uok buf' /\ zlen buf' = 18 /\ ((sg buf' 0 18 = V mod Bn /\ (n = O \/ last_guess V = last_unit V)) \/ (last_guess V = last_unit V + 1 /\ sg buf' 0 18 = Bn - V mod Bn)).
  Proof.
    destruct near_pos as (HD & HB & HB').
    induction n as [|n IH]; intros buf V buf' U L Hn EVd HV HQ HL HG H.
    - cbn [long_rem] in H. apply Ret_inj in H. subst buf'. split; [exact U|]. split; [exact L|]. left. rewrite Z.pow_0_r, Z.mul_1_r in HV.
      rewrite <- EVd. split; [|left; reflexivity]. symmetry. apply Z.mod_small. split; [rewrite EVd; apply sg_nonneg, U|exact HV].
    - replace (Z.of_nat (S n)) with (Z.of_nat n + 1) in * by (clear; lia).
      assert (S0 : 0 <= Z.of_nat n) by (clear; lia). set (s := Z.of_nat n) in *. replace (len - 2 + (s + 1)) with (len - 1 + s) in H by (clear; lia).
      assert (Hi : len - 1 + s + 1 < 18) by (clear - Hn; lia). pose proof (pow_base_pos s S0) as Ps.
      assert (V0 : 0 <= V) by (rewrite EVd; apply sg_nonneg, U).
      assert (VB : V < base ^ (len - 1 + s + 2)).
      { apply Z.lt_trans with (Bn * base ^ (s + 1)); [exact HV|]. replace (len - 1 + s + 2) with (len + (s + 1)) by (clear; lia). rewrite (base_pow_split len (s + 1)) by (clear - Hlen S0; lia).
        apply Z.mul_lt_mono_pos_r; [apply pow_base_pos; clear - S0; lia|exact HB']. }
      assert (GX : exists g, guess_qhat m buf (len - 1 + s) d0 d1 = Ret g).
      { cbn [long_rem] in H. apply bind_inv in H. destruct H as (g & E & _). eauto. }
      destruct GX as [g Eg].
      assert (XQ : V / base ^ s / Bn = V / (Bn * base ^ s)) by (rewrite (Z.mul_comm Bn), Z.div_div by (clear - Ps HB; lia); reflexivity).
      assert (Hq : 0 <= V / (Bn * base ^ s) < base).
      { split; [apply Z.div_pos; [exact V0|apply Z.mul_pos_pos; assumption]|]. apply Z.div_lt_upper_bound; [apply Z.mul_pos_pos; assumption|].
        rewrite base_S in HV by exact S0. clear - HV. replace (Bn * base ^ s * base) with (Bn * (base * base ^ s)) by ring. exact HV. }
      pose proof (Z.div_mod (V / base ^ s) Bn ltac:(clear - HB; lia)) as DM. pose proof (Z.mod_pos_bound (V / base ^ s) Bn HB) as BM. rewrite XQ in DM.
      pose proof (near_guess s buf V g S0 U L Hi EVd VB) as NG.
      destruct (Z.eq_dec s 0) as [Z0|Z0].
      + (* the last round *)
        assert (VM : V mod (Bn * base) = V) by (apply Z.mod_small; rewrite Z0, Z.add_0_l, Z.pow_1_r in HV; split; assumption).
        unfold last_guess, last_unit in HL, HG |- *. rewrite VM in *. rewrite Z0 in *. rewrite Z.add_0_l in NG.
        rewrite !Z.pow_0_r, ?Z.mul_1_r, ?Z.div_1_r in *. 
        assert (EG : g = V / base ^ (len - 2) / D) by (apply NG; [clear - HG HL; set (u := V / Bn) in *; clearbody u; lia|exact Eg]).
        rewrite <- EG in *. clear NG.
        assert (HT : - Bn <= V / base ^ s - g * Bn < Bn).
        { rewrite Z0, Z.pow_0_r, Z.div_1_r. clear - HG DM BM. set (u := V / Bn) in *. set (v := V mod Bn) in *. clearbody u v. destruct HG as [-> | ->]; rewrite DM; lia. }
        destruct (rem_step n buf V g (Ret buf') U L ltac:(fold s; rewrite Z0; exact Hi) EVd ltac:(fold s; rewrite Z0; exact VB) ltac:(clear - HG HL Hq; set (u := V / Bn) in *; clearbody u; lia) HT ltac:(fold s; rewrite Z0; exact Eg) ltac:(fold s; rewrite Z0; exact H)) as (bf & Uf & Lf & Ef & Hf).
        fold s in Ef. assert (N0 : n = O) by (clear - Z0; unfold s in Z0; lia). rewrite N0 in Hf. cbn [long_rem] in Hf. apply Ret_inj in Hf. subst buf'.
        split; [exact Uf|]. split; [exact Lf|]. rewrite Ef, Z0, Z.pow_0_r, Z.div_1_r, Z.mod_1_r, Z.mul_1_l, Z.add_0_r.
        clear - HG DM BM. set (u := V / Bn) in *. set (v := V mod Bn) in *. clearbody u v. rewrite DM. destruct HG as [-> | ->].
        * left. replace (Bn * u + v - u * Bn) with v by ring. split; [lia|right; reflexivity].
        * right. split; [reflexivity|]. replace (Bn * u + v - (u + 1) * Bn) with (v - Bn) by ring. lia.
      + pose proof (HQ s ltac:(clear - S0 Z0; lia)) as Q. unfold trial_ok in Q. rewrite (Z.mod_small V) in Q by (split; assumption).
        assert (EG : g = V / (Bn * base ^ s)) by (rewrite <- Q; apply NG; [rewrite Q; apply Hq|exact Eg]). clear NG Q.
        assert (ER : V / base ^ s - g * Bn = (V / base ^ s) mod Bn).
        { rewrite EG. clear - DM. set (t := V / base ^ s) in *. set (q := V / (Bn * base ^ s)) in *. clearbody t q. rewrite (Z.mul_comm q). lia. }
        destruct (rem_step n buf V g (Ret buf') U L Hi EVd VB ltac:(rewrite EG; exact Hq) ltac:(fold s; rewrite ER; clear - BM HB; lia) Eg H) as (bf & Uf & Lf & Ef & Hf).
        fold s in Ef, Hf. rewrite ER in Ef. rewrite Z.abs_eq in Ef by apply BM.
        assert (EM : V mod (Bn * base ^ s) = sg bf 0 18).
        { rewrite Ef. rewrite (Z.mul_comm Bn), Z.rem_mul_r by (clear - Ps HB; lia). ring. }
        assert (MM : forall t, 0 <= t < s -> V mod (Bn * base ^ s) mod (Bn * base ^ (t + 1)) = V mod (Bn * base ^ (t + 1))).
        { intros t T. replace (Bn * base ^ s) with (Bn * base ^ (t + 1) * base ^ (s - t - 1)).
          - apply mod_mod_mul; [apply Z.mul_pos_pos; [exact HB|apply pow_base_pos; clear - T; lia]|apply pow_base_pos; clear - T; lia].
          - rewrite <- Z.mul_assoc, <- base_pow_split by (clear - T; lia). do 2 f_equal. clear. lia. }
        pose proof (MM 0 ltac:(clear - S0 Z0; lia)) as M0. rewrite Z.add_0_l, Z.pow_1_r in M0.
        assert (PBs : 0 < Bn * base ^ s) by (apply Z.mul_pos_pos; assumption).
        replace (len - 1 + s - 1) with (len - 2 + s) in Hf by (clear; lia).
        destruct (IH bf (V mod (Bn * base ^ s)) buf' Uf Lf ltac:(clear - Hn; lia) EM) as (Y1 & Y2 & Y3).
        * apply Z.mod_pos_bound, PBs.
        * intros t T. unfold trial_ok. rewrite MM by (clear - T; lia). apply HQ. clear - T. lia.
        * unfold last_unit. rewrite M0. exact HL.
        * unfold last_unit, last_guess. rewrite M0. exact HG.
        * exact Hf.
        * split; [exact Y1|]. split; [exact Y2|]. unfold last_unit, last_guess in Y3 |- *. rewrite M0 in Y3. rewrite mod_mod_mul in Y3 by assumption.
          destruct Y3 as [[Y3 [Y4|Y4]]|Y3]; [exfalso; clear - Y4 Z0; unfold s in Z0; lia|left; split; [exact Y3|right; exact Y4]|right; exact Y3].
  Qed.

  (** The two leading units of what remains. *)
  Lemma lead_two s buf V : let i := len - 1 + s in 0 <= s -> uok buf -> zlen buf = 18 -> i + 1 < 18 -> V = sg buf 0 18 -> V < base ^ (i + 2) ->
    V / base ^ (s + len - 1) = zn buf (i + 1) * base + zn buf i.
  Proof.
    intros i S0 U L Hi EVd VB. assert (Ei : i = len - 1 + s) by reflexivity. clearbody i.
    replace (s + len - 1) with i by (clear - Ei; lia). rewrite EVd. rewrite (div_sg buf i 2 18) by (try exact U; try (rewrite <- EVd; exact VB); clear - Ei Hi Hlen S0; lia).
    change 2 with (1 + 1). rewrite sg_cons by lia. rewrite sg_1. clear. ring.
  Qed.
  Lemma near_guess_fwd s buf V : let i := len - 1 + s in 0 <= s -> uok buf -> zlen buf = 18 -> i + 1 < 18 -> V = sg buf 0 18 -> V < base ^ (i + 2) ->
    V / base ^ (s + len - 2) / D < base -> (m = Debug -> V / base ^ (s + len - 1) < d0 * base) -> guess_qhat m buf i d0 d1 = Ret (V / base ^ (s + len - 2) / D).
  Proof.
    intros i S0 U L Hi EVd VB HG HS. rewrite (lead_two s buf V S0 U L Hi EVd VB) in HS. destruct near_pos as (HD & _). assert (Ei : i = len - 1 + s) by reflexivity. fold i in HS. clearbody i. assert (I0 : 0 <= i) by (clear - Ei Hlen S0; lia).
    assert (E2 : V / base ^ (s + len - 2) = (zn buf (i + 1) * base + zn buf i) * base + dg buf (i - 1)).
    { replace (s + len - 2) with (i - 1) by (clear - Ei; lia). rewrite EVd. rewrite (div_sg buf (i - 1) 3 18) by (try exact U; try (rewrite <- EVd; replace (i - 1 + 3) with (i + 2) by (clear; lia); exact VB); clear - Ei Hi Hlen S0; lia).
      change 3 with (1 + (1 + 1)). rewrite !sg_cons by lia. rewrite sg_1. unfold dg. replace (i - 1 <? 0) with false by (clear - Ei Hlen S0; lia).
      replace (i - 1 + 1) with i by (clear; lia). clear. ring. }
    rewrite E2 in HG |- *. pose proof (dg_bound buf (i - 1) U) as Bg.
    assert (HR : zn buf (i + 1) * base + zn buf i < D).
    { set (R := zn buf (i + 1) * base + zn buf i) in *. clearbody R. clear - HG Bg HD.
      pose proof (Z.mul_succ_div_gt (R * base + dg buf (i - 1)) D HD) as X. set (q := _ / D) in *. clearbody q.
      assert (D * Z.succ q <= D * base) by (apply Z.mul_le_mono_nonneg_l; lia). unfold base in *. lia. }
    exact (guess_ok m d0 d1 H0 H0' H1 buf i U I0 ltac:(rewrite L; exact Hi) ltac:(rewrite L; clear; lia) HR HS).
  Qed.

  (** One round whose guess is right. *)
  Lemma right_step n buf V g o : let s := Z.of_nat n in uok buf -> zlen buf = 18 -> len + (s + 1) <= 18 -> V = sg buf 0 18 -> V < Bn * base ^ (s + 1) -> V < base ^ (len - 1 + s + 2) ->
    g = V / (Bn * base ^ s) -> guess_qhat m buf (len - 1 + s) d0 d1 = Ret g -> long_rem m (S n) b2 len d0 d1 buf (len - 1 + s) = o ->
    exists bf, uok bf /\ zlen bf = 18 /\ V mod (Bn * base ^ s) = sg bf 0 18 /\ long_rem m n b2 len d0 d1 bf (len - 2 + s) = o.
  Proof.
    intros s U L Hn EVd HV VB EG Eg H. destruct near_pos as (HD & HB & HB'). assert (S0 : 0 <= s) by (unfold s; clear; lia). pose proof (pow_base_pos s S0) as Ps.
    assert (V0 : 0 <= V) by (rewrite EVd; apply sg_nonneg, U).
    assert (XQ : V / base ^ s / Bn = V / (Bn * base ^ s)) by (rewrite (Z.mul_comm Bn), Z.div_div by (clear - Ps HB; lia); reflexivity).
    assert (Hq : 0 <= V / (Bn * base ^ s) < base).
    { split; [apply Z.div_pos; [exact V0|apply Z.mul_pos_pos; assumption]|]. apply Z.div_lt_upper_bound; [apply Z.mul_pos_pos; assumption|].
      rewrite base_S in HV by exact S0. clear - HV. replace (Bn * base ^ s * base) with (Bn * (base * base ^ s)) by ring. exact HV. }
    pose proof (Z.div_mod (V / base ^ s) Bn ltac:(clear - HB; lia)) as DM. pose proof (Z.mod_pos_bound (V / base ^ s) Bn HB) as BM. rewrite XQ in DM.
    assert (ER : V / base ^ s - g * Bn = (V / base ^ s) mod Bn).
    { rewrite EG. clear - DM. set (t := V / base ^ s) in *. set (q := V / (Bn * base ^ s)) in *. clearbody t q. rewrite (Z.mul_comm q). lia. }
    destruct (rem_step n buf V g o U L ltac:(fold s; clear - Hn; lia) EVd VB ltac:(rewrite EG; exact Hq) ltac:(fold s; rewrite ER; clear - BM HB; lia) Eg H) as (bf & Uf & Lf & Ef & Hf).
    fold s in Ef, Hf. rewrite ER in Ef. rewrite Z.abs_eq in Ef by apply BM. exists bf. split; [exact Uf|]. split; [exact Lf|].
    split; [|replace (len - 1 + s - 1) with (len - 2 + s) in Hf by (clear; lia); exact Hf].
    rewrite Ef. rewrite (Z.mul_comm Bn), Z.rem_mul_r by (clear - Ps HB; lia). ring.
  Qed.
  Lemma mod_pow V s t : 0 < Bn -> 0 <= t < s -> V mod (Bn * base ^ s) mod (Bn * base ^ (t + 1)) = V mod (Bn * base ^ (t + 1)).
  Proof.
    intros HB T. replace (Bn * base ^ s) with (Bn * base ^ (t + 1) * base ^ (s - t - 1)).
    - apply mod_mod_mul; [apply Z.mul_pos_pos; [exact HB|apply pow_base_pos; clear - T; lia]|apply pow_base_pos; clear - T; lia].
    - rewrite <- Z.mul_assoc, <- base_pow_split by (clear - T; lia). do 2 f_equal. clear. lia.
  Qed.
  Lemma V_bound s V : 0 <= s -> V < Bn * base ^ (s + 1) -> V < base ^ (len - 1 + s + 2).
  Proof.
    intros S0 HV. destruct near_pos as (HD & HB & HB'). apply Z.lt_trans with (Bn * base ^ (s + 1)); [exact HV|]. replace (len - 1 + s + 2) with (len + (s + 1)) by (clear; lia). rewrite (base_pow_split len (s + 1)) by (clear - Hlen S0; lia).
    apply Z.mul_lt_mono_pos_r; [apply pow_base_pos; clear - S0; lia|exact HB'].
  Qed.

  (** The loop returns if the first guesses are small (of interest in a debug build). *)
  Lemma long_rem_near_returns n : forall buf V, uok buf -> zlen buf = 18 -> len + Z.of_nat n <= 18 ->
    V = sg buf 0 18 -> V < Bn * base ^ Z.of_nat n ->
    (forall s, 1 <= s < Z.of_nat n -> trial_ok V Bn len D s) ->
    (m = Debug -> forall s, 0 <= s < Z.of_nat n -> trial_small V Bn len d0 s) ->
    last_unit V + 1 < base -> last_guess V = last_unit V \/ last_guess V = last_unit V + 1 ->
    exists buf', long_rem m n b2 len d0 d1 buf (len - 2 + Z.of_nat n) = Ret buf'.
  Proof.
    destruct near_pos as (HD & HB & HB').
    induction n as [|n IH]; intros buf V U L Hn EVd HV HQ HS HL HG; [cbn [long_rem]; eauto|].
    replace (Z.of_nat (S n)) with (Z.of_nat n + 1) in * by (clear; lia).
    assert (S0 : 0 <= Z.of_nat n) by (clear; lia). set (s := Z.of_nat n) in *. replace (len - 2 + (s + 1)) with (len - 1 + s) by (clear; lia).
    assert (Hi : len - 1 + s + 1 < 18) by (clear - Hn; lia). pose proof (pow_base_pos s S0) as Ps. assert (V0 : 0 <= V) by (rewrite EVd; apply sg_nonneg, U).
    pose proof (V_bound s V S0 HV) as VB. assert (VS : V mod (Bn * base ^ (s + 1)) = V) by (apply Z.mod_small; split; assumption).
    assert (HS1 : m = Debug -> V / base ^ (s + len - 1) < d0 * base).
    { intros M. specialize (HS M s ltac:(clear - S0; lia)). unfold trial_small in HS. rewrite VS in HS. exact HS. }
    assert (Hq : 0 <= V / (Bn * base ^ s) < base).
    { split; [apply Z.div_pos; [exact V0|apply Z.mul_pos_pos; assumption]|]. apply Z.div_lt_upper_bound; [apply Z.mul_pos_pos; assumption|].
      rewrite base_S in HV by exact S0. clear - HV. replace (Bn * base ^ s * base) with (Bn * (base * base ^ s)) by ring. exact HV. }
    pose proof (near_guess_fwd s buf V S0 U L Hi EVd VB) as NG. cbv zeta in NG.
    destruct (Z.eq_dec s 0) as [Z0|Z0].
    - assert (VM : V mod (Bn * base) = V) by (rewrite Z0, Z.add_0_l, Z.pow_1_r in VS; exact VS).
      unfold last_guess, last_unit in HL, HG. rewrite VM in *. rewrite Z0 in *. rewrite !Z.add_0_l in *.
      rewrite !Z.pow_0_r, ?Z.mul_1_r, ?Z.div_1_r in *.
      specialize (NG ltac:(clear - HG HL; set (u := V / Bn) in *; clearbody u; lia) HS1). set (g := V / base ^ (len - 2) / D) in *.
      assert (HT : - Bn <= V / base ^ s - g * Bn < Bn).
      { rewrite Z0, Z.pow_0_r, Z.div_1_r. pose proof (Z.div_mod V Bn ltac:(clear - HB; lia)) as DM. pose proof (Z.mod_pos_bound V Bn HB) as BM. clear - HG DM BM. set (u := V / Bn) in *. set (v := V mod Bn) in *. clearbody u v g. destruct HG as [-> | ->]; rewrite DM; lia. }
      destruct (rem_step n buf V g (long_rem m (S n) b2 len d0 d1 buf (len - 1 + 0)) U L ltac:(fold s; rewrite Z0; exact Hi) EVd ltac:(fold s; rewrite Z0; exact VB) ltac:(clear - HG HL Hq; set (u := V / Bn) in *; clearbody u g; lia) HT ltac:(fold s; rewrite Z0; exact NG) ltac:(fold s; rewrite Z0; reflexivity)) as (bf & Uf & Lf & Ef & Hf).
      rewrite <- Hf. assert (N0 : n = O) by (clear - Z0; unfold s in Z0; lia). rewrite N0. cbn [long_rem]. eauto.
    - pose proof (HQ s ltac:(clear - S0 Z0; lia)) as Q. unfold trial_ok in Q. rewrite VS in Q.
      assert (EG : guess_qhat m buf (len - 1 + s) d0 d1 = Ret (V / (Bn * base ^ s))) by (rewrite <- Q; apply NG; [rewrite Q; apply Hq|exact HS1]). clear NG Q.
      destruct (right_step n buf V _ (long_rem m (S n) b2 len d0 d1 buf (len - 1 + s)) U L Hn EVd HV VB eq_refl EG eq_refl) as (bf & Uf & Lf & EM & Hf). fold s in EM, Hf. rewrite <- Hf.
      assert (PBs : 0 < Bn * base ^ s) by (apply Z.mul_pos_pos; assumption). pose proof (mod_pow V s 0 HB ltac:(clear - S0 Z0; lia)) as M0. rewrite Z.add_0_l, Z.pow_1_r in M0.
      apply (IH bf (V mod (Bn * base ^ s)) Uf Lf ltac:(clear - Hn; lia) EM).
      + apply Z.mod_pos_bound, PBs.
      + intros t T. unfold trial_ok. rewrite mod_pow by (try exact HB; clear - T; lia). apply HQ. clear - T. lia.
      + intros M t T. unfold trial_small. rewrite mod_pow by (try exact HB; clear - T; lia). apply HS; [exact M|clear - T; lia].
      + unfold last_unit. rewrite M0. exact HL.
      + unfold last_unit, last_guess. rewrite M0. exact HG.
  Qed.

  (** Conversely a debug build that returns has made small first guesses. *)
  Lemma long_rem_small n : forall buf V buf', m = Debug -> uok buf -> zlen buf = 18 -> len + Z.of_nat n <= 18 ->
    V = sg buf 0 18 -> V < Bn * base ^ Z.of_nat n ->
    (forall s, 1 <= s < Z.of_nat n -> trial_ok V Bn len D s) ->
    long_rem m n b2 len d0 d1 buf (len - 2 + Z.of_nat n) = Ret buf' ->
    forall s, 0 <= s < Z.of_nat n -> trial_small V Bn len d0 s.
  Proof.
    destruct near_pos as (HD & HB & HB').
    induction n as [|n IH]; intros buf V buf' HM U L Hn EVd HV HQ H t T; [exfalso; clear - T; lia|].
    replace (Z.of_nat (S n)) with (Z.of_nat n + 1) in * by (clear; lia).
    assert (S0 : 0 <= Z.of_nat n) by (clear; lia). set (s := Z.of_nat n) in *. replace (len - 2 + (s + 1)) with (len - 1 + s) in H by (clear; lia).
    assert (Hi : len - 1 + s + 1 < 18) by (clear - Hn; lia). pose proof (pow_base_pos s S0) as Ps. assert (V0 : 0 <= V) by (rewrite EVd; apply sg_nonneg, U).
    pose proof (V_bound s V S0 HV) as VB. assert (VS : V mod (Bn * base ^ (s + 1)) = V) by (apply Z.mod_small; split; assumption).
    assert (GX : exists g, guess_qhat m buf (len - 1 + s) d0 d1 = Ret g).
    { cbn [long_rem] in H. apply bind_inv in H. destruct H as (g & E & _). eauto. }
    destruct GX as [g Eg]. destruct (Z.eq_dec t s) as [->|Ts].
    - unfold trial_small. rewrite VS. rewrite (lead_two s buf V S0 U L Hi EVd VB). rewrite HM in Eg. apply (guess_debug_inv buf (len - 1 + s) d0 d1 g U); rewrite ?L; try assumption; try (clear - Hlen S0 Hi; lia). clear - H0 H0'. unfold base in *. lia.
    - assert (Q : V / (Bn * base ^ s) < base).
      { apply Z.div_lt_upper_bound; [apply Z.mul_pos_pos; assumption|]. rewrite base_S in HV by exact S0. clear - HV. replace (Bn * base ^ s * base) with (Bn * (base * base ^ s)) by ring. exact HV. }
      pose proof (HQ s ltac:(clear - T Ts; lia)) as Q1. unfold trial_ok in Q1. rewrite VS in Q1.
      assert (EG : g = V / (Bn * base ^ s)) by (rewrite <- Q1; apply (near_guess s buf V g S0 U L Hi EVd VB); [rewrite Q1; exact Q|exact Eg]).
      destruct (right_step n buf V g (Ret buf') U L Hn EVd HV VB EG Eg H) as (bf & Uf & Lf & EM & Hf). fold s in EM, Hf.
      assert (PBs : 0 < Bn * base ^ s) by (apply Z.mul_pos_pos; assumption).
      assert (X : trial_small (V mod (Bn * base ^ s)) Bn len d0 t).
      { apply (IH bf (V mod (Bn * base ^ s)) buf' HM Uf Lf ltac:(clear - Hn; lia) EM); [apply Z.mod_pos_bound, PBs| |exact Hf|clear - T Ts; lia].
        intros u Tu. unfold trial_ok. rewrite mod_pow by (try exact HB; clear - Tu; lia). apply HQ. clear - Tu. lia. }
      unfold trial_small in *. rewrite mod_pow in X by (try exact HB; clear - T Ts; lia). exact X.
  Qed.
End near.
