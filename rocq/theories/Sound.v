(** * Well-formed operands give well-formed results: nothing else is assumed
    of the operands. *)
From Coq Require Import ZArith List Bool Lia QArith Qabs.
From Coq Require Import ZifyBool ZifyNat.
From Verif Require Import Rust Tables Model_Base Model_Cmp Model_Round Model_Decimal Model_Arith Model_Serde Spec Spec_Div Spec_History Lib Cmp AddSub Sign AddTo AddSubQ Basics QLib Round RoundTo RoundQ Conv Scan Parse ParseMain ParseThms ParseAny
  Mul MulAbs MulQ MulLaws DivBasics DivQ DivG2 Rem4 Rem5 Witness Robust2 Robust3 Prop_Robust.
Import ListNotations.
Open Scope Z_scope.
Ltac Zify.zify_post_hook ::= Z.div_mod_to_equations.

(** ** Parsing in a debug build, strings of every length *)
Lemma scan_over ds rest i d dot last cf ng : Forall is_digit ds -> 0 <= d <= 127 -> 127 < d + zlength ds ->
  scan_loop Debug (map digit_byte ds ++ rest) i d dot last cf ng = Panic POverflow.
Proof.
  intros F. revert i d last. induction F as [|x ds Hx F IH]; intros i d last Hd HD.
  - rewrite zlength_nil in HD. lia.
  - cbn [map app scan_loop]. rewrite zlength_cons in *. unfold is_digit in Hx. unfold c0, c9, digit_byte.
    replace ((48 + x >=? 48) && (48 + x <=? 57)) with true by lia.
    destruct (Z.eq_dec d 127) as [->|N]; [reflexivity|]. rewrite i8_ok by lia. mret.
    change (map (fun x => 48 + x) ds) with (map digit_byte ds). apply IH; lia.
Qed.
Lemma scan_long s ip pt fp rest : Forall is_digit ip -> Forall is_digit fp -> (pt = false -> fp = []) -> 127 < zlength ip + zlength fp ->
  scan_loop Debug (mantissa s ip pt fp ++ rest) (-1) 0 (-1) (-1) 0 false = Panic POverflow.
Proof.
  intros FI FF PF L. pose proof (zlength_nonneg _ ip). unfold mantissa. rewrite <- !app_assoc.
  assert (E1 : scan_loop Debug (sign_bytes s ++ map digit_byte ip ++ point_bytes pt ++ map digit_byte fp ++ rest) (-1) 0 (-1) (-1) 0 false =
     scan_loop Debug (map digit_byte ip ++ point_bytes pt ++ map digit_byte fp ++ rest) (opt_len s - 1) 0 (-1) (-1) (opt_len s) (is_minus s)).
  { destruct s as [[]|]; reflexivity. }
  rewrite E1. clear E1. destruct (Z_lt_ge_dec 127 (zlength ip)) as [G|G]; [apply scan_over; [exact FI|lia|lia]|].
  rewrite scan_digits by (try exact FI; lia). destruct pt; [|rewrite (PF eq_refl) in L; rewrite zlength_nil in L; lia].
  cbn [point_bytes app scan_loop]. unfold c0, c9, cdot.
  change ((46 >=? 48) && (46 <=? 57)) with false. change ((46 =? 46) && (-1 =? -1)) with true. cbv iota. apply scan_over; [exact FF|lia|lia].
Qed.
(** In a debug build the three outcomes of [parse_cases] are the only ones,
    whatever the length. *)
Lemma parse_debug_cases self reset bs : wf self ->
  (exists n d, bs = numeral_bytes n /\ numeral_ok n /\ within_limits n /\
     from_bytes_str Debug self bs reset = Ret (Ok tt, d) /\ parsed n (tgt reset self) d) \/
  ((forall n, numeral_ok n -> within_limits n -> numeral_bytes n <> bs) /\
   (from_bytes_str Debug self bs reset = Ret (Err ConversionSyntax, tgt reset self) \/
    ((62 < mantissa_digits bs \/ 11 <= exp_length bs) /\ from_bytes_str Debug self bs reset = Panic POverflow))).
Proof.
  intros W. destruct (decompose bs) as (s & ip & pt & fp & rest & -> & FI & FF & P & ST).
  pose proof (mantissa_digits_ge s ip pt fp rest FI FF) as G.
  destruct (Z_lt_ge_dec 127 (zlength ip + zlength fp)) as [L|L].
  - right. split.
    + intros n OK WL E. apply (f_equal mantissa_digits) in E. rewrite (numeral_mantissa_digits n OK) in E. destruct WL as [_ WL]. unfold numeral_digits in WL. lia.
    + right. split; [left; lia|]. unfold from_bytes_str.
      assert (NE : forall A (x y : A), match mantissa s ip pt fp ++ rest with [] => x | _ => y end = y).
      { intros A x y. destruct (mantissa s ip pt fp ++ rest) eqn:E; [|reflexivity]. exfalso. change (mantissa_digits []) with 0 in G. lia. }
      rewrite NE. rewrite scan_long by assumption. reflexivity.
  - destruct (parse_main Debug self reset s ip pt fp rest (wf_uok _ W) (wf_zlen _ W) FI FF P ST ltac:(lia)) as [(ex & d & ER & OK & WL & E & PD)|(N & H)].
    + left. exists (mknum s ip pt fp ex), d. split; [rewrite numeral_bytes_eq, ER; reflexivity|].
      split; [exact OK|]. split; [exact WL|]. split; [exact E|exact PD].
    + right. split; [exact N|]. destruct H as [H|(_ & H & E)]; [left; exact H|]. right. split; [|exact E].
      destruct H as [H|[H1 H2]]; [left; lia|]. right. rewrite exp_length_rest by assumption. exact H2.
Qed.

(** ** Products *)
Lemma mul_row_any m lvs : forall li ri s rv r c idx r' c' idx', uok lvs -> uok r -> 0 <= rv < base -> 0 <= c < base ->
  mul_row m lvs li ri s rv r c idx = Ret (r', c', idx') -> uok r' /\ zlen r' = zlen r /\ 0 <= c' < base.
Proof.
  induction lvs as [|lv lvs IH]; intros li ri s rv r c idx r' c' idx' UL UR HV HC H; cbn [mul_row] in H.
  - injection H as <- <- <-. auto.
  - apply uok_cons in UL. destruct UL as [HL UL]. cbv zeta in H.
    destruct (Z.ltb_spec (li + ri - s) (-1)) as [_|_]; [apply (IH _ _ _ _ _ _ _ _ _ _ UL UR HV HC H)|].
    assert (PB : 0 <= lv * rv <= 999999998000000001) by (unfold base in *; nia).
    destruct (Z.eqb_spec (li + ri - s) (-1)) as [_|_].
    + rewrite i64_ok in H by (clear - PB; lia). rewrite bind_Ret in H. destruct (Z.ltb_spec (lv * rv) UNIT) as [_|_]; [apply (IH _ _ _ _ _ _ _ _ _ _ UL UR HV HC H)|].
      rewrite i64_div_ok in H by (unfold UNIT; clear - PB; lia). rewrite bind_Ret in H. refine (IH _ _ _ _ _ _ _ _ _ _ UL UR HV _ H).
      clear H. generalize dependent (lv * rv). intros v PB. unfold UNIT, base. clear - PB. lia.
    + rewrite i64_ok in H by (clear - PB; lia). rewrite bind_Ret in H. apply bind_inv in H. destruct H as (old & EO & H). apply get_inv in EO. destruct EO as (IR & ->).
      pose proof (uok_zn r (li + ri - s) UR) as BO. assert (X : exists old, old = zn r (li + ri - s)) by eauto. destruct X as (old & X). rewrite <- X in *. clear X.
      assert (X : exists p, p = lv * rv) by eauto. destruct X as (p & X). rewrite <- X in *. clear X. unfold base in HC, BO.
      rewrite i64_ok in H by (clear - PB BO; lia). rewrite bind_Ret in H. rewrite i64_ok in H by (clear - PB BO HC; lia). rewrite bind_Ret in H.
      rewrite i64_div_ok in H by (unfold UNIT; clear - PB BO HC; lia). rewrite bind_Ret in H. unfold UNIT in H.
      assert (D : exists q, q = (p + old + c) / 1000000000 /\ 0 <= q < 1000000000 /\ 0 <= p + old + c - q * 1000000000 < 1000000000) by (eexists; split; [reflexivity|]; clear - PB BO HC; lia).
      destruct D as (q & EQ & Q1 & Q2). rewrite <- EQ in H. clear EQ.
      rewrite i64_ok in H by (clear - Q1; lia). rewrite bind_Ret in H. rewrite i64_ok in H by (clear - Q2; lia). rewrite bind_Ret in H.
      rewrite set_ok in H by exact IR. rewrite bind_Ret in H.
      rewrite as_i32_id in H by (clear - Q2; lia). destruct (IH _ _ _ _ _ _ _ _ _ _ UL (uok_upd _ _ _ UR Q2) HV Q1 H) as (A & B & C).
      split; [exact A|]. split; [rewrite B; apply zlen_upd|exact C].
Qed.
Lemma mul_rows_any m lvs s rvs : forall i r rs r', uok lvs -> uok rvs -> uok r -> mul_rows m rvs lvs i s r = Ret (rs, r') -> uok r' /\ zlen r' = zlen r.
Proof.
  induction rvs as [|rv rvs IH]; intros i r rs r' UL UV UR H; cbn [mul_rows] in H.
  - injection H as ? <-. auto.
  - apply uok_cons in UV. destruct UV as [HV UV]. apply bind_inv in H. destruct H as ([[r1 c1] x] & E & H).
    destruct (mul_row_any m lvs _ _ _ _ _ _ _ _ _ _ UL UR HV ltac:(split; [reflexivity || discriminate|reflexivity]) E) as (U1 & L1 & C1). apply bind_inv in H. destruct H as (u & _ & H).
    destruct (x + 1 <? MAX_UNITS).
    + apply bind_inv in H. destruct H as (r2 & E2 & H). apply set_inv in E2. destruct E2 as (_ & ->). rewrite as_i32_id in H by (clear - C1; unfold base in C1; lia).
      destruct (IH _ _ _ _ UL UV (uok_upd _ _ _ U1 C1) H) as (A & B). split; [exact A|]. rewrite B, zlen_upd. exact L1.
    + destruct (c1 >? 0); [injection H as ? <-; auto|]. destruct (IH _ _ _ _ UL UV U1 H) as (A & B). split; [exact A|]. rewrite B. exact L1.
Qed.
Lemma wf_zero : wf zero.
Proof. apply wfb_wf. vm_compute. reflexivity. Qed.
Lemma mul_to_any m a b res rs d : wf a -> wf b -> mul_to m a b res = Ret (rs, d) -> wf d.
Proof.
  intros Ha Hb H. unfold mul_to in H. destruct (is_zero a || is_zero b); [injection H as ? <-; apply wf_zero|]. cbv zeta in H.
  apply bind_inv in H. destruct H as ([rs0 d0] & E & H).
  assert (W : wf d0).
  { destruct (mul_abs_sums m a b res _ Ha Hb E) as (S1 & S2). rewrite mul_abs_eq in E by assumption. destruct (Z.gtb_spec (mru a b) 9) as [L|L]; [injection E as ? <-; apply wf_zero|].
    pose proof (mul_shape a b Ha Hb L) as (M1 & M2 & M3 & M4 & _ & M6 & M7).
    apply bind_inv in E. destruct E as ([rs1 r] & ER & E). assert (UB : uok (firstn (Z.to_nat (iu b + fu b)) (fd_lsu b))) by apply Forall_firstn, wf_uok, Hb.
    assert (UA : uok match firstn (Z.to_nat (iu b + fu b)) (fd_lsu b) with [] => [] | _ => firstn (Z.to_nat (iu a + fu a)) (fd_lsu a) end).
    { destruct (firstn (Z.to_nat (iu b + fu b)) (fd_lsu b)); [constructor|apply Forall_firstn, wf_uok, Ha]. }
    destruct (mul_rows_any _ _ _ _ _ _ _ _ UA UB (uok_repeat0 9) ER) as (UR & LR).
    change (zlen zero_units) with 9 in LR. apply zlen_9 in LR.
    destruct rs1; injection E as <- <-.
    - assert (DI : int_digits (mkfd (mru a b * 9) (Z.min (frac_digits a + frac_digits b) (mrf a b * 9)) r) = 9 * mru a b) by (rewrite Z.mul_comm; apply int_digits_9; lia).
      assert (IU : iu (mkfd (mru a b * 9) (Z.min (frac_digits a + frac_digits b) (mrf a b * 9)) r) = mru a b) by (unfold iu; rewrite DI; apply units_for_9).
      constructor; cbn [fd_lsu fd_intg fd_frac]; [exact LR|exact UR|lia| |]; [change (frac_digits (mkfd (mru a b * 9) (Z.min (frac_digits a + frac_digits b) (mrf a b * 9)) r)) with (Z.min (frac_digits a + frac_digits b) (mrf a b * 9)); lia|].
      rewrite IU. unfold fu. change (frac_digits (mkfd (mru a b * 9) (Z.min (frac_digits a + frac_digits b) (mrf a b * 9)) r)) with (Z.min (frac_digits a + frac_digits b) (mrf a b * 9)). rewrite M6. exact M3.
    - constructor; cbn [fd_lsu fd_intg fd_frac]; [exact LR|exact UR|lia|vm_compute; discriminate|vm_compute; discriminate]. }
  destruct rs0; cbn [finish_sign] in H; injection H as ? <-; [|exact W]. destruct (xorb (is_neg a) (is_neg b)); [apply check_zero_wf, W|exact W].
Qed.

(** ** Rounding *)
Lemma round_half_up_any m d I G t fr c d' : uok (fd_lsu d) -> zlen (fd_lsu d) = 9 -> 0 <= I -> 0 <= G -> I + G <= 9 -> 0 <= t < 128 -> 0 <= fr <= 127 -> G = units_for fr -> 0 <= c <= 1 ->
  round_half_up m d I G t fr c = Ret d' -> wf d'.
Proof.
  intros U L HI HG HN Ht Hfr EG Hc H. unfold round_half_up in H. rewrite as_i8_id in H by lia. rewrite div9_ok in H by lia. rewrite bind_Ret in H. rewrite mod9_ok in H by lia. rewrite bind_Ret in H. cbv zeta in H.
  apply bind_inv in H. destruct H as ([[l1 x] c1] & E1 & H).
  assert (A1 : uok l1 /\ zlen l1 = 9 /\ 0 <= c1 <= 1).
  { destruct (Z.eqb_spec (t mod 9) 0) as [Z0|Z0]; cbn [negb] in E1; [injection E1 as <- <- <-; auto|].
    apply bind_inv in E1. destruct E1 as (u & EU & E1). apply get_inv in EU. destruct EU as (_ & ->). pose proof (uok_zn (fd_lsu d) (t / 9) U) as BU.
    rewrite round_unit_ok in E1 by (try exact BU; clear - Z0 Ht; lia). rewrite bind_Ret in E1.
    destruct (unit_round_bound (zn (fd_lsu d) (t / 9)) (t mod 9) ltac:(clear - Z0 Ht; lia) BU) as (B1 & B2).
    generalize dependent (10 ^ (t mod 9) * ((zn (fd_lsu d) (t / 9) + 5 * 10 ^ (t mod 9 - 1)) / 10 ^ (t mod 9))). intros v E1 B1 B2.
    apply bind_inv in E1. destruct E1 as ([u' c2] & E2 & E1).
    assert (0 <= u' < base /\ 0 <= c2 <= 1).
    { clear E1. change UNIT with base in *. destruct (Z.geb_spec v base) as [V|V].
      - rewrite i32_ok in E2 by (unfold base in *; lia). rewrite bind_Ret in E2. injection E2 as <- <-. unfold base in *. lia.
      - injection E2 as <- <-. lia. }
    apply bind_inv in E1. destruct E1 as (l & ES & E1). apply set_inv in ES. destruct ES as (_ & ->). injection E1 as <- <- <-.
    split; [apply uok_upd; tauto|]. split; [rewrite zlen_upd; exact L|tauto]. }
  clear E1. destruct A1 as (U1 & L1 & C1).
  apply bind_inv in H. destruct H as ([l2 I2] & E2 & H).
  assert (A2 : uok l2 /\ zlen l2 = 9 /\ I <= I2 /\ I2 + G <= 9).
  { destruct (Z.gtb_spec c1 0) as [Cp|Cp]; [|injection E2 as <- <-; split; [exact U1|split; [exact L1|lia]]].
    apply bind_inv in E2. destruct E2 as (s & ES & E2). apply slice_inv in ES. destruct ES as (S1 & S2 & _).
    destruct (carry_loop_ok m (Z.to_nat (I + G - x)) l1 x c1 U1 ltac:(lia) ltac:(lia) C1) as (l' & c' & EC & (WL & WU & _) & _).
    assert (WZ : zlen l' = 9) by (unfold zlen in *; lia). clear WL.
    rewrite EC in E2. rewrite bind_Ret in E2. destruct (c' >? 0).
    - apply bind_inv in E2. destruct E2 as (l3 & ES & E2). apply set_inv in ES. destruct ES as (IB & ->). injection E2 as <- <-.
      split; [apply uok_upd; [exact WU|unfold base; lia]|]. split; [rewrite zlen_upd; lia|lia].
    - injection E2 as <- <-. split; [exact WU|]. split; lia. }
  clear E2. destruct A2 as (U2 & L2 & A3 & A4).
  apply bind_inv in H. destruct H as (l3 & E3 & H). apply fill_inv in E3. destruct E3 as (F1 & F2 & ->).
  injection H as <-.
  assert (W : wf (mkfd (as_i8 (I2 * DIGITS_PER_UNIT)) fr (blit l2 0 (repeat 0 (Z.to_nat (t / 9 - 0)))))).
  { rewrite as_i8_9 by lia.
    assert (IU : iu (mkfd (9 * I2) fr (blit l2 0 (repeat 0 (Z.to_nat (t / 9 - 0))))) = I2) by (unfold iu; rewrite int_digits_9 by lia; apply units_for_9).
    constructor; cbn [fd_lsu fd_intg fd_frac].
    - apply zlen_9. rewrite zlen_blit; [exact L2|lia|rewrite zlen_repeat; lia].
    - apply uok_blit; [exact U2|apply uok_repeat0].
    - lia.
    - unfold frac_digits. cbn. lia.
    - rewrite IU. unfold fu, frac_digits. cbn [fd_frac]. lia. }
  destruct (is_neg d); [apply set_neg_wf, W|exact W].
Qed.

Lemma round_any m a f d : wf a -> -9223372036854775807 < f <= 127 -> round m a f = Ret d -> wf d.
Proof.
  intros Ha Hf H. pose proof (wf_counts a Ha) as (Hi & Hfr & HI & HF & HN). pose proof (wf_zlen a Ha) as L. pose proof (wf_uok a Ha) as U.
  unfold round in H. rewrite intg_units_ok, frac_units_ok in H by assumption. rewrite !bind_Ret in H. cbv zeta in H. unfold frac in H. fold (frac_digits a) in H.
  destruct (Z.geb_spec f (frac_digits a)) as [Gf|Gf].
  - rewrite as_i8_id in H by lia. apply bind_inv in H. destruct H as (G & EG & H).
    assert (G = units_for f) as ->.
    { destruct (Z_le_gt_dec f 119); [rewrite get_units_ok in EG by lia; congruence|]. destruct (get_units_big m f ltac:(lia)) as [p E]. congruence. }
    assert (SH : forall l, zlen l = 9 -> uok l -> iu a + units_for f <= 9 -> wf (mkfd (fd_intg a) f l)).
    { intros l LL UL FL. constructor; cbn [fd_lsu fd_intg fd_frac]; [apply zlen_9, LL|exact UL|apply Ha|unfold frac_digits; cbn; lia|exact FL]. }
    destruct (Z.eqb_spec (units_for f) (fu a)) as [E|E]; [apply Ret_inj in H; subst d; apply SH; auto; lia|].
    assert (fu a <= units_for f) by (unfold fu, units_for; lia).
    rewrite usize_ok in H by (unfold units_for in *; lia). rewrite bind_Ret in H. apply bind_inv in H. destruct H as (l & EC & H). apply copy_within_inv in EC. destruct EC as (C1 & C2 & C3 & C4 & ->).
    apply Ret_inj in H; subst d. apply SH; [rewrite zlen_blit; [exact L|lia|rewrite zlen_sub by lia; lia]|apply uok_blit; [exact U|apply uok_sub, U]|lia].
  - destruct (Z.ltb_spec f 0) as [N|N].
    + rewrite isize_ok in H by lia. rewrite bind_Ret in H. rewrite isize_ok in H by lia. rewrite bind_Ret in H. rewrite intg_ok in H.
      destruct (Z.gtb_spec (- f + 1) (int_digits a)) as [X|X]; [apply Ret_inj in H; subst d; apply wf_zero|].
      apply bind_inv in H. destruct H as (l & EC & H). apply copy_within_inv in EC. destruct EC as (C1 & C2 & C3 & C4 & ->).
      assert (L1 : zlen (blit (fd_lsu a) 0 (firstn (Z.to_nat (fu a + iu a - fu a)) (skipn (Z.to_nat (fu a)) (fd_lsu a)))) = 9) by (rewrite zlen_blit; [exact L|lia|rewrite zlen_sub by lia; lia]).
      assert (U1 : uok (blit (fd_lsu a) 0 (firstn (Z.to_nat (fu a + iu a - fu a)) (skipn (Z.to_nat (fu a)) (fd_lsu a))))) by (apply uok_blit; [exact U|apply uok_sub, U]).
      set (l1 := blit _ _ _) in *. clearbody l1. apply bind_inv in H. destruct H as (l2 & EF & H). apply fill_inv in EF. destruct EF as (F1 & F2 & ->).
      eapply round_half_up_any; [..|exact H]; cbn [fd_lsu]; [apply uok_blit; [exact U1|apply uok_repeat0]|rewrite zlen_blit; [exact L1|lia|rewrite zlen_repeat; lia]|lia|lia|lia|lia|lia|reflexivity|lia].
    + rewrite as_i8_id in H by lia. rewrite i8_ok in H by lia. rewrite bind_Ret in H. rewrite get_units_ok in H by lia. rewrite bind_Ret in H. rewrite mod9_ok in H by lia. rewrite bind_Ret in H.
      apply bind_inv in H. destruct H as ([[l G] c] & E & H).
      assert (X : uok l /\ zlen l = 9 /\ G = units_for f /\ G <= fu a /\ 0 <= c <= 1).
      { destruct (Z.ltb_spec (units_for (f + 1)) (fu a)) as [A|A].
        - apply bind_inv in E. destruct E as ([G1 c1] & E1 & E).
          assert (Y : G1 = units_for f /\ 0 <= c1 <= 1).
          { destruct (Z.eqb_spec (f mod 9) 0) as [M|M].
            - apply bind_inv in E1. destruct E1 as (u & _ & E1). injection E1 as <- <-. split; [unfold units_for; clear - M N; lia|destruct (u >=? HALF_UNIT); lia].
            - injection E1 as <- <-. split; [unfold units_for; clear - M N; lia|lia]. }
          clear E1. destruct Y as [-> YC]. assert (G0 : 0 <= units_for f) by (unfold units_for; lia). assert (G1 : units_for f <= units_for (f + 1)) by (unfold units_for; lia).
          apply bind_inv in E. destruct E as (l1 & EC & E). apply copy_within_inv in EC. destruct EC as (C1 & C2 & C3 & C4 & ->).
          apply bind_inv in E. destruct E as (l2 & EF & E). apply fill_inv in EF. destruct EF as (F1 & F2 & ->). apply Ret_inj in E. apply pair_equal_spec in E. destruct E as [E <-]. apply pair_equal_spec in E. destruct E as [<- <-].
          rewrite zlen_blit in F2 by (rewrite ?zlen_sub by lia; lia).
          split; [apply uok_blit; [apply uok_blit; [exact U|apply uok_sub, U]|apply uok_repeat0]|].
          split; [rewrite zlen_blit; [rewrite zlen_blit; [exact L|lia|rewrite zlen_sub by lia; lia]|lia|rewrite zlen_repeat, zlen_blit; [lia|lia|rewrite zlen_sub by lia; lia]]|].
          split; [reflexivity|]. split; [lia|exact YC].
        - apply bind_inv in E. destruct E as (u0 & _ & E).
          assert (FE : units_for (f + 1) = fu a) by (unfold fu, units_for in *; clear - A Gf N; lia).
          destruct (Z.eqb_spec (f mod 9) 0) as [M|M].
          + apply bind_inv in E. destruct E as (u & _ & E). apply bind_inv in E. destruct E as (l1 & EC & E). apply copy_within_inv in EC. destruct EC as (C1 & C2 & C3 & C4 & ->).
            apply bind_inv in E. destruct E as (l2 & ES & E). apply set_inv in ES. destruct ES as (S1 & ->). apply Ret_inj in E. apply pair_equal_spec in E. destruct E as [E <-]. apply pair_equal_spec in E. destruct E as [<- <-].
            split; [apply uok_upd; [apply uok_blit; [exact U|apply uok_sub, U]|split; [discriminate|reflexivity]]|].
            split; [rewrite zlen_upd, zlen_blit; [exact L|lia|rewrite zlen_sub by lia; lia]|].
            split; [rewrite <- FE; unfold units_for; clear - M N; lia|]. split; [lia|destruct (u >=? HALF_UNIT); lia].
          + apply Ret_inj in E. apply pair_equal_spec in E. destruct E as [E <-]. apply pair_equal_spec in E. destruct E as [<- <-]. split; [exact U|]. split; [exact L|]. split; [rewrite <- FE; unfold units_for; clear - M N; lia|lia]. }
      clear E. destruct X as (UL & LL & -> & XG & XC). assert (G0 : 0 <= units_for f) by (unfold units_for; lia).
      change DIGITS_PER_UNIT with 9 in H.
      eapply round_half_up_any; [..|exact H]; cbn [fd_lsu]; [exact UL|exact LL|lia|lia|lia|unfold units_for; clear - N Hf; lia|lia|reflexivity|exact XC].
Qed.
Lemma round_to_any m a res f d : wf a -> -9223372036854775807 < f <= 127 -> round_to m a res f = Ret d -> wf d.
Proof.
  intros Ha Hf H. destruct (Z_lt_ge_dec f 0) as [N|N]; [eapply round_to_neg_wf; [exact Ha| |exact H]; lia|].
  destruct (Z_lt_ge_dec f (frac_digits a)) as [G|G].
  - destruct (round_to_frac m a res f Ha ltac:(lia)) as [(d' & E & R)|(E & _)]; rewrite E in H; [|discriminate H]. injection H as <-. apply R.
  - eapply round_to_keeps; [exact Ha| |exact H]. lia.
Qed.

(** ** Histories *)
Lemma sound_step m st c rs d : (forall i, wf (st i)) -> sound_call m st c -> perform m st c = Ret (rs, d) -> wf d.
Proof.
  intros R A H. destruct c as [k bs reset|k n|k n|k|k|i k|k|k|i j k|i j k|i j k|i j k|i j k incr|i k f|k f]; cbn [perform sound_call] in *.
  - eapply parse_any; [apply (R k)|exact H].
  - destruct (from_i64_ok m n A) as (d' & E & (W & _)). rewrite E in H. injection H as <- <-. exact W.
  - destruct (from_u64_ok m n A) as (d' & E & (W & _) & _). rewrite E in H. injection H as <- <-. exact W.
  - injection H as <- <-. apply wf_zero.
  - injection H as <- <-. apply wfb_wf. vm_compute. reflexivity.
  - injection H as <- <-. apply R.
  - injection H as <- <-. apply set_neg_wf, R.
  - injection H as <- <-. apply set_pos_wf, R.
  - eapply add_exact; [apply (R i)|apply (R j)|exact H].
  - eapply sub_exact; [apply (R i)|apply (R j)|exact H].
  - eapply mul_to_any; [apply (R i)|apply (R j)|exact H].
  - destruct (Qeq_dec (value (st j)) 0) as [Zj|Zj]; [rewrite (rem_dbz m _ _ _ (R i) (R j) Zj) in H; injection H as <- <-; apply wf_zero|].
    eapply rem_to_any; [apply (R i)|apply (R j)|exact Zj|exact H].
  - destruct m; [eapply C36_debug_quotients_partial; [apply (R i)|apply (R j)|exact H]|]. specialize (A eq_refl).
    destruct (Qeq_dec (value (st j)) 0) as [Zj|Zj]; [rewrite (div_dbz Release _ _ _ incr (R i) (R j) Zj) in H; injection H as <- <-; apply wf_zero|].
    destruct (Qeq_dec (value (st i)) 0) as [Zi|Zi]; [rewrite (div_to_zero Release _ _ _ incr (R i) (R j) Zi Zj) in H; injection H as <- <-; apply wf_zero|].
    destruct A as [A|[A|(S2 & I & Rm)]]; [contradiction..|].
    destruct (div_to_run_gen Release _ _ _ incr rs d (R i) (R j) Zi Zj I Rm (long_good_release _ _ _ (R i) (R j) S2) H) as (e & _ & _ & [(_ & _ & ->)|(_ & _ & W & _)]); [apply wf_zero|exact W].
  - apply bind_inv in H. destruct H as (d' & E & H). injection H as <- <-. eapply round_to_any; [apply (R i)|exact A|exact E].
  - apply bind_inv in H. destruct H as (d' & E & H). injection H as <- <-. eapply round_any; [apply (R k)|exact A|exact E].
Qed.
Lemma sound_history m st cs st' : (forall i, wf (st i)) -> history (sound_call m) m st cs st' -> forall i, wf (st' i).
Proof.
  intros R H. induction H as [st|st c cs rs d st' A E H IH]; [exact R|]. apply IH. intros i. unfold write. destruct (Nat.eqb i (target c)); [|apply R]. eapply sound_step; eauto.
Qed.
