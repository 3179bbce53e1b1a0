(** * Parsing any string whatever: what comes back is well-formed, also where
    the 8-bit counter of digits has wrapped around. *)
From Coq Require Import ZArith List Bool Lia.
From Coq Require Import ZifyBool ZifyNat.
From Verif Require Import Rust Tables Model_Base Model_Serde Spec Lib Sign AddSub Basics Scan Parse ParseThms.
Import ListNotations.
Open Scope Z_scope.

Definition body (bs : list Z) (a b : Z) : Prop := forall k, a <= k <= b -> 48 <= zn bs k <= 57 \/ zn bs k = 46.
Definition nine (l : list Z) : Prop := uok l /\ zlen l = 9.

Lemma nine_set l i v l' : nine l -> 0 <= v < base -> set l i v = Ret l' -> nine l'.
Proof. intros [U L] V H. apply set_inv in H. destruct H as [_ ->]. split; [apply uok_upd; assumption|rewrite zlen_upd; exact L]. Qed.

Lemma scan_any m bs : forall rest pre i d dot last cf ng s, bs = pre ++ rest -> i = zlength pre - 1 ->
  0 <= cf <= i + 1 -> -1 <= last <= i -> (last = -1 \/ cf <= last /\ 48 <= zn bs last <= 57) -> -128 <= d <= 127 -> body bs cf i ->
  scan_loop m rest i d dot last cf ng = Ret s ->
  -128 <= s_d s <= 127 /\ (s_last s = -1 \/ (0 <= s_cfirst s <= s_last s /\ body bs (s_cfirst s) (s_last s) /\ 48 <= zn bs (s_last s) <= 57)).
Proof.
  induction rest as [|c rest IH]; intros pre i d dot last cf ng s EB EI CF LA LC D B H; cbn [scan_loop] in H.
  - apply Ret_inj in H. subst s. cbn. split; [exact D|]. destruct LC as [LC|LC]; [left; exact LC|right]. split; [lia|]. split; [|exact (proj2 LC)]. intros k K. apply B. lia.
  - assert (C : zn bs (i + 1) = c).
    { unfold zn. rewrite EB, app_nth2 by (unfold zlength in EI; lia). replace (Z.to_nat (i + 1) - length pre)%nat with O by (unfold zlength in EI; lia). reflexivity. }
    assert (EB' : bs = (pre ++ [c]) ++ rest) by (rewrite <- app_assoc; exact EB).
    assert (EI' : i + 1 = zlength (pre ++ [c]) - 1) by (rewrite zlength_app, zlength_cons, zlength_nil; lia).
    destruct ((c >=? c0) && (c <=? c9)) eqn:E1.
    { apply bind_inv in H. destruct H as (d' & ED & H). apply i8_range in ED. eapply (IH (pre ++ [c]) (i + 1)); [exact EB'|exact EI'| | | | | |exact H]; [lia|lia|right; rewrite C; unfold c0, c9 in E1; lia|exact ED|].
      intros k K. destruct (Z.eq_dec k (i + 1)) as [->|N]; [left; rewrite C; unfold c0, c9 in E1; lia|apply B; lia]. }
    destruct ((c =? cdot) && (dot =? -1)) eqn:E2.
    { assert (C46 : zn bs (i + 1) = 46) by (rewrite C; unfold cdot in E2; lia).
      eapply (IH (pre ++ [c]) (i + 1)); [exact EB'|exact EI'| | | |exact D| |exact H]; [destruct (Z.eqb_spec (i + 1) cf); lia|lia|destruct (Z.eqb_spec (i + 1) cf); lia|].
      intros k K. destruct (Z.eq_dec k (i + 1)) as [->|N]; [right; exact C46|]. apply B. destruct (Z.eqb_spec (i + 1) cf); lia. }
    destruct ((i + 1 =? 0) && (c =? cminus)) eqn:E3.
    { eapply (IH (pre ++ [c]) (i + 1)); [exact EB'|exact EI'| | | |exact D| |exact H]; [lia|lia|lia|]. intros k K. apply B. lia. }
    destruct ((i + 1 =? 0) && (c =? cplus)) eqn:E4.
    { eapply (IH (pre ++ [c]) (i + 1)); [exact EB'|exact EI'| | | |exact D| |exact H]; [lia|lia|lia|]. intros k K. apply B. lia. }
    apply Ret_inj in H. subst s. cbn. split; [exact D|]. destruct LC as [LC|LC]; [left; exact LC|right]. split; [lia|]. split; [|exact (proj2 LC)]. intros k K. apply B. lia.
Qed.

Lemma intg_any m bs cf last : body bs cf last -> 48 <= zn bs last <= 57 -> forall fuel i out cut up l i' out' cut' up' l',
  cf <= i <= last -> 1 <= cut <= 65 -> 0 <= out < 10 ^ (8 - (cut - 1) mod 9) -> nine l ->
  intg_loop m fuel bs last i out cut up l = Ret (i', out', cut', up', l') ->
  nine l' /\ 0 <= cut' <= 64 /\ 0 <= out' < 10 ^ (9 - cut' mod 9) /\ cf <= i' <= last.
Proof.
  intros B BL. induction fuel as [|fuel IH]; intros i out cut up l i' out' cut' up' l' I C O N H; cbn [intg_loop] in H; [discriminate H|].
  apply bind_inv in H. destruct H as (c & G & H). apply get_inv in G. destruct G as [_ ->].
  destruct (Z.eqb_spec (zn bs i) cdot) as [E|E].
  { destruct (Z.eq_dec i last) as [->|NL]; [unfold cdot in E; lia|]. eapply IH; [|exact C|exact O|exact N|exact H]. lia. }
  destruct (B i I) as [BI|BI]; [|contradiction]. remember (zn bs i) as c eqn:EC. clear EC E.
  assert (R : 0 <= (cut - 1) mod 9 < 9) by (apply Z.mod_pos_bound; lia).
  assert (P8 : 10 ^ (8 - (cut - 1) mod 9) <= 10 ^ 8) by (apply Z.pow_le_mono_r; lia). change (10 ^ 8) with 100000000 in P8.
  assert (P9 : 10 ^ (9 - (cut - 1) mod 9) = 10 * 10 ^ (8 - (cut - 1) mod 9)) by (rewrite <- Z.pow_succ_r by lia; f_equal; lia).
  assert (P9' : 10 ^ (9 - (cut - 1) mod 9) <= 10 ^ 9) by (apply Z.pow_le_mono_r; lia). change (10 ^ 9) with 1000000000 in P9'.
  rewrite i32_ok in H by lia. rewrite bind_Ret in H. rewrite i32_ok in H by lia. rewrite bind_Ret in H. unfold c0 in H. rewrite i32_ok in H by lia. rewrite bind_Ret in H.
  rewrite i8_ok in H by lia. rewrite bind_Ret in H.
  assert (O' : 0 <= out * 10 + c - 48 < 10 ^ (9 - (cut - 1) mod 9)) by lia.
  destruct (Z.eqb_spec (cut - 1) 0) as [E0|E0].
  { apply Ret_inj in H. assert (X : i = i' /\ out * 10 + c - 48 = out' /\ cut - 1 = cut' /\ l = l') by (injection H; auto). destruct X as (<- & <- & <- & <-). split; [exact N|]. split; [lia|]. split; [exact O'|lia]. }
  destruct (Z.eqb_spec i last) as [EL|EL].
  { apply Ret_inj in H. assert (X : i = i' /\ out * 10 + c - 48 = out' /\ cut - 1 = cut' /\ l = l') by (injection H; auto). destruct X as (<- & <- & <- & <-). split; [exact N|]. split; [lia|]. split; [exact O'|lia]. }
  rewrite mod9_ok in H by lia. rewrite bind_Ret in H. destruct (Z.gtb_spec ((cut - 1) mod 9) 0) as [M|M].
  - eapply IH; [| | |exact N|exact H]; [lia|lia|]. replace (8 - (cut - 1 - 1) mod 9) with (9 - (cut - 1) mod 9); [exact O'|].
    replace ((cut - 1 - 1) mod 9) with ((cut - 1) mod 9 - 1); [lia|]. apply Z.mod_unique with (q := (cut - 1) / 9); [lia|]. pose proof (Z.div_mod (cut - 1) 9). lia.
  - apply bind_inv in H. destruct H as (l1 & S & H). eapply IH; [| | | |exact H]; [lia|lia|split; [lia|apply Z.pow_pos_nonneg; [lia|pose proof (Z.mod_pos_bound (cut - 1 - 1) 9); lia]]|].
    eapply nine_set; [exact N| |exact S]. unfold base. lia.
Qed.

Lemma zero_fill_any m : forall fuel l up cut l' up', nine l -> zero_fill m fuel l up cut = Ret (l', up') -> nine l'.
Proof.
  induction fuel as [|fuel IH]; intros l up cut l' up' N H; cbn [zero_fill] in H; [discriminate H|]. destruct (cut >? 0).
  - apply bind_inv in H. destruct H as (l1 & S & H). apply bind_inv in H. destruct H as (c1 & _ & H). eapply IH; [|exact H]. eapply nine_set; [exact N| |exact S]. unfold base. lia.
  - apply Ret_inj in H. assert (l = l') as <- by congruence. exact N.
Qed.

Lemma heading_any m : forall fuel l up hz l' up' hz', nine l -> -128 <= hz <= 127 -> heading_fill m fuel l up hz = Ret (l', up', hz') ->
  nine l' /\ ((0 <= hz /\ 0 <= hz' <= 8) \/ (hz < 0 /\ hz' = hz)).
Proof.
  induction fuel as [|fuel IH]; intros l up hz l' up' hz' N B H; cbn [heading_fill] in H; [discriminate H|]. unfold DIGITS_PER_UNIT in H. destruct (Z.geb_spec hz 9) as [G|G].
  - apply bind_inv in H. destruct H as (l1 & S & H). rewrite i8_ok in H by lia. rewrite bind_Ret in H.
    assert (N1 : nine l1) by (eapply nine_set; [exact N| |exact S]; unfold base; lia).
    assert (HB : -128 <= hz - 9 <= 127) by lia. destruct (IH _ _ _ _ _ _ N1 HB H) as (N' & [X|X]); [split; [exact N'|left; lia]|lia].
  - apply Ret_inj in H. assert (l = l' /\ hz = hz') as (<- & <-) by (injection H; auto). split; [exact N|lia].
Qed.

Lemma frac_past m bs last : forall fuel i out cut up l r, last < i -> frac_loop m fuel bs last i out cut up l = Ret r -> False.
Proof.
  induction fuel as [|fuel IH]; intros i out cut up l r I H; cbn [frac_loop] in H; [discriminate H|].
  apply bind_inv in H. destruct H as (c & _ & H). destruct (c =? cdot); [eapply IH; [|exact H]; lia|].
  do 5 (apply bind_inv in H; destruct H as (? & _ & H)). replace (i =? last) with false in H by lia.
  destruct (_ >? 0); [eapply IH; [|exact H]; lia|]. apply bind_inv in H. destruct H as (? & _ & H). eapply IH; [|exact H]. lia.
Qed.
Lemma frac_far m bs last : forall fuel i out cut up l r, -128 <= cut <= 127 -> 72 <= cut \/ cut <= -119 -> frac_loop m fuel bs last i out cut up l = Ret r -> False.
Proof.
  induction fuel as [|fuel IH]; intros i out cut up l r C F H; cbn [frac_loop] in H; [discriminate H|].
  apply bind_inv in H. destruct H as (c & _ & H). destruct (c =? cdot); [eapply IH; [exact C|exact F|exact H]|].
  apply bind_inv in H. destruct H as (x & E & H). apply bind_inv in H. destruct H as (? & _ & H). apply bind_inv in H. destruct H as (p & G & _). apply get_inv in G. destruct G as [G _]. change (zlen POW10) with 10 in G.
  unfold i8, chk in E. destruct ((-128 <=? cut - 1) && (cut - 1 <=? 127)) eqn:R; [apply Ret_inj in E; lia|]. destruct m; [discriminate E|]. apply Ret_inj in E. assert (cut = -128) by lia. subst cut. vm_compute in E. lia.
Qed.
Lemma frac_any m bs cf last : body bs cf last -> 48 <= zn bs last <= 57 -> forall fuel i out cut up l out' up' l',
  cf <= i -> 1 <= cut <= 9 -> 0 <= out <= base - 10 ^ cut -> nine l ->
  frac_loop m fuel bs last i out cut up l = Ret (out', up', l') -> nine l' /\ 0 <= out' < base.
Proof.
  intros B BL. induction fuel as [|fuel IH]; intros i out cut up l out' up' l' I C O N H; [discriminate H|].
  destruct (Z.lt_ge_cases last i) as [P|P]; [destruct (frac_past _ _ _ _ _ _ _ _ _ _ P H)|]. cbn [frac_loop] in H.
  apply bind_inv in H. destruct H as (c & G & H). apply get_inv in G. destruct G as [_ ->].
  destruct (Z.eqb_spec (zn bs i) cdot) as [E|E].
  { eapply IH; [|exact C|exact O|exact N|exact H]. lia. }
  destruct (B i ltac:(lia)) as [BI|BI]; [|contradiction]. remember (zn bs i) as c eqn:EC. clear EC E.
  rewrite i8_ok in H by lia. rewrite bind_Ret in H. unfold c0 in H. rewrite i32_ok in H by lia. rewrite bind_Ret in H. rewrite pow10_get in H by lia. rewrite bind_Ret in H.
  assert (PC : 10 ^ cut = 10 * 10 ^ (cut - 1)) by (rewrite <- Z.pow_succ_r by lia; f_equal; lia). assert (PP : 0 < 10 ^ (cut - 1)) by (apply Z.pow_pos_nonneg; lia).
  assert (P8 : 10 ^ (cut - 1) <= 10 ^ 8) by (apply Z.pow_le_mono_r; lia). change (10 ^ 8) with 100000000 in P8.
  remember (10 ^ (cut - 1)) as p eqn:Ep. assert (T : 0 <= (c - 48) * p <= 9 * p) by nia. unfold base in O.
  rewrite i32_ok in H by lia. rewrite bind_Ret in H. rewrite i32_ok in H by lia. rewrite bind_Ret in H.
  set (t := (c - 48) * p) in *. clearbody t.
  destruct (Z.eqb_spec i last) as [EL|EL].
  { apply Ret_inj in H. assert (X : out + t = out' /\ l = l') by (injection H; auto). destruct X as (<- & <-). split; [exact N|]. unfold base. lia. }
  destruct (Z.gtb_spec (cut - 1) 0) as [M|M].
  - eapply IH; [| | |exact N|exact H]; [lia|lia|]. rewrite <- Ep. unfold base. lia.
  - apply bind_inv in H. destruct H as (l1 & S & H). eapply IH; [| | | |exact H]; [lia|unfold DIGITS_PER_UNIT; lia|unfold DIGITS_PER_UNIT, base; vm_compute; split; discriminate|].
    eapply nine_set; [exact N| |exact S]. unfold base. lia.
Qed.

Lemma layout_hz m F e d f g h : layout m F e d = Ret (f, g, h) -> as_usize g <= MAX_DIGITS -> -128 <= d <= 127 -> 0 <= h <= 127 \/ -128 <= h <= -63.
Proof.
  unfold layout. intros H G D. apply bind_inv in H. destruct H as (r & ER & H). apply i8_range in ER. unfold MAX_DIGITS, as_usize in G.
  destruct (Z.compare_spec r 0) as [C|C|C].
  - apply Ret_inj in H. injection H as <- <- <-. lia.
  - apply bind_inv in H. destruct H as (g' & _ & H). apply Ret_inj in H. injection H as <- <- <-. lia.
  - destruct (Z.gtb_spec d r) as [L|L]; [apply Ret_inj in H; injection H as <- <- <-; lia|].
    apply bind_inv in H. destruct H as (h' & EH & H). apply Ret_inj in H. injection H as <- <- <-.
    assert (R65 : r <= 65) by (rewrite Z.mod_small in G by lia; lia).
    unfold i8, chk in EH. destruct ((-128 <=? r - d) && (r - d <=? 127)) eqn:R; [apply Ret_inj in EH; lia|]. destruct m; [discriminate EH|]. apply Ret_inj in EH.
    assert (X : (r - d - -128) mod (127 - -128 + 1) = r - d - 128) by (symmetry; apply Z.mod_unique with (q := 1); lia). lia.
Qed.

Lemma convert_any m self bs s frac digits hz d : wf self -> 0 <= s_cfirst s <= s_last s -> body bs (s_cfirst s) (s_last s) -> 48 <= zn bs (s_last s) <= 57 ->
  0 <= frac <= digits -> digits <= 65 -> 0 <= hz <= 127 \/ -128 <= hz <= -63 -> convert m self bs s frac digits hz = Ret d -> wf d.
Proof.
  intros W CF B BL FD D65 HZ H. unfold convert in H.
  assert (N0 : nine (fd_lsu self)) by (split; [apply wf_uok, W|apply wf_zlen, W]).
  rewrite !i8_ok in H by lia. rewrite bind_Ret in H. rewrite !get_units_ok in H by lia. rewrite !bind_Ret in H.
  apply bind_inv in H. destruct H as (up0 & _ & H). cbv zeta in H. apply bind_inv in H. destruct H as ([[l1 up1] i1] & E1 & H).
  assert (P1 : nine l1 /\ s_cfirst s <= i1).
  { destruct (units_for (digits - frac) >? 0) eqn:U.
    - rewrite ?bind_Ret in E1. apply bind_inv in E1. destruct E1 as ([[[[i' out'] cut'] up'] l'] & EL & E1).
      assert (POS : 1 <= digits - frac) by (unfold units_for in U; destruct (Z.eq_dec (digits - frac) 0) as [Z0|]; [rewrite Z0 in U; discriminate U|lia]).
      assert (O0 : 0 <= 0 < 10 ^ (8 - (digits - frac - 1) mod 9)) by (split; [lia|apply Z.pow_pos_nonneg; [lia|pose proof (Z.mod_pos_bound (digits - frac - 1) 9); lia]]).
      assert (IC : s_cfirst s <= s_cfirst s <= s_last s) by lia. assert (D1 : 1 <= digits - frac <= 65) by lia.
      destruct (intg_any m bs (s_cfirst s) (s_last s) B BL _ _ _ _ _ _ _ _ _ _ _ IC D1 O0 N0 EL) as (N1 & C1 & O1 & I1).
      rewrite mod9_ok in E1 by lia. rewrite bind_Ret in E1. pose proof (Z.mod_pos_bound cut' 9 ltac:(lia)) as MB.
      rewrite pow10_get in E1 by lia. rewrite bind_Ret in E1.
      assert (V : 0 <= out' * 10 ^ (cut' mod 9) < base).
      { assert (PP : 0 < 10 ^ (cut' mod 9)) by (apply Z.pow_pos_nonneg; lia). assert (PE : 10 ^ (9 - cut' mod 9) * 10 ^ (cut' mod 9) = base) by (rewrite <- Z.pow_add_r by lia; replace (9 - cut' mod 9 + cut' mod 9) with 9 by lia; reflexivity).
        rewrite <- PE. clear - O1 PP. nia. }
      rewrite i32_ok in E1 by (unfold base in V; lia). rewrite bind_Ret in E1. apply bind_inv in E1. destruct E1 as (l2 & S & E1).
      pose proof (nine_set _ _ _ _ N1 V S) as N2. apply bind_inv in E1. destruct E1 as (c2 & _ & E1). apply bind_inv in E1. destruct E1 as ([l3 up3] & ZF & E1).
      pose proof (zero_fill_any m _ _ _ _ _ _ N2 ZF) as N3. apply Ret_inj in E1. assert (X : l3 = l1 /\ i' + 1 = i1) by (injection E1; auto). destruct X as (<- & <-). split; [exact N3|lia].
    - apply Ret_inj in E1. assert (X : fd_lsu self = l1 /\ s_cfirst s = i1) by (injection E1; auto). destruct X as (<- & <-). split; [exact N0|lia]. }
  clear E1. destruct P1 as [N1 I1]. apply bind_inv in H. destruct H as (l2 & E2 & H).
  assert (N2 : nine l2).
  { destruct (units_for frac >? 0); [|apply Ret_inj in E2; subst l2; exact N1].
    apply bind_inv in E2. destruct E2 as ([[l3 up3] hz3] & HF & E2). assert (HR : -128 <= hz <= 127) by lia. destruct (heading_any m _ _ _ _ _ _ _ N1 HR HF) as (N3 & HH).
    apply bind_inv in E2. destruct E2 as (cut & EC & E2). apply bind_inv in E2. destruct E2 as ([[out4 up4] l4] & FL & E2). unfold DIGITS_PER_UNIT in EC.
    destruct HH as [[H0 H8]|[HN ->]].
    - rewrite i8_ok in EC by lia. apply Ret_inj in EC. subst cut.
      assert (OB : 0 <= 0 <= base - 10 ^ (9 - hz3)) by (split; [lia|]; assert (10 ^ (9 - hz3) <= 10 ^ 9) by (apply Z.pow_le_mono_r; lia); unfold base; lia).
      assert (CB : 1 <= 9 - hz3 <= 9) by lia. destruct (frac_any m bs (s_cfirst s) (s_last s) B BL _ _ _ _ _ _ _ _ _ I1 CB OB N3 FL) as (N4 & O4). eapply nine_set; [exact N4|exact O4|exact E2].
    - exfalso. assert (HZ' : -128 <= hz <= -63) by lia. apply (frac_far m bs (s_last s) _ _ _ cut _ _ _) in FL; [exact FL|exact (i8_range _ _ _ EC)|].
      unfold i8, chk in EC. destruct ((-128 <=? 9 - hz) && (9 - hz <=? 127)) eqn:R; [apply Ret_inj in EC; lia|]. destruct m; [discriminate EC|]. apply Ret_inj in EC.
      assert (X : (9 - hz - -128) mod (127 - -128 + 1) = 9 - hz - 128) by (symmetry; apply Z.mod_unique with (q := 1); lia). lia. }
  clear E2. destruct N2 as [U2 L2]. rewrite ?bind_Ret in H. apply Ret_inj in H.
  assert (WD : wf (mkfd (digits - frac) frac l2)).
  { assert (ID : int_digits (mkfd (digits - frac) frac l2) = digits - frac) by (unfold int_digits; cbn; apply Z.mod_small; lia).
    constructor; [unfold zlen in L2; cbn; lia|exact U2|cbn; lia|cbn; lia|]. unfold iu, fu. rewrite ID. change (frac_digits (mkfd (digits - frac) frac l2)) with frac.
    assert (D1 : units_for (digits - frac) * 9 <= digits - frac + 8) by (unfold units_for; rewrite Z.mul_comm; apply Z.mul_div_le; lia). assert (D2 : units_for frac * 9 <= frac + 8) by (unfold units_for; rewrite Z.mul_comm; apply Z.mul_div_le; lia). lia. }
  subst d. destruct (s_neg s); [apply set_neg_wf|]; exact WD.
Qed.

(** Whatever the bytes. *)
Lemma parse_any m self bs reset rs d : wf self -> from_bytes_str m self bs reset = Ret (rs, d) -> wf d.
Proof.
  intros W H. unfold from_bytes_str in H.
  assert (WT : wf (if reset then set_zero self else self)) by (destruct reset; [exact wf_zero|exact W]).
  set (t := if reset then set_zero self else self) in *. clearbody t. destruct bs as [|b bs]; [apply Ret_inj in H; assert (t = d) as <- by congruence; exact WT|].
  remember (b :: bs) as all eqn:EA. clear EA. apply bind_inv in H. destruct H as (s & ES & H).
  destruct (scan_any m all all [] (-1) 0 (-1) (-1) 0 false s eq_refl eq_refl ltac:(lia) ltac:(lia) (or_introl eq_refl) ltac:(lia) ltac:(intros k K; lia) ES) as (DR & LA).
  destruct (Z.eqb_spec (s_last s) (-1)) as [L|L]; [apply Ret_inj in H; assert (t = d) as <- by congruence; exact WT|].
  destruct LA as [LA|(CF & B & BL)]; [contradiction|].
  apply bind_inv in H. destruct H as (e & _ & H). destruct e as [e|]; [|apply Ret_inj in H; assert (t = d) as <- by congruence; exact WT].
  cbv zeta in H. apply bind_inv in H. destruct H as ([[f g] h] & EL & H).
  destruct (Z.gtb_spec (as_usize g) MAX_DIGITS) as [G|G]; [apply Ret_inj in H; assert (t = d) as <- by congruence; exact WT|].
  destruct (layout_digits _ _ _ _ _ _ _ EL G DR) as [F G65]. pose proof (layout_hz _ _ _ _ _ _ _ EL G DR) as HZ.
  apply bind_inv in H. destruct H as (d' & E & H). apply Ret_inj in H. assert (d' = d) as <- by congruence. eapply convert_any; [exact WT|exact CF|exact B|exact BL|exact F|exact G65|exact HZ|exact E].
Qed.
