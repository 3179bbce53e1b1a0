(** * Properties: rounding to every position (C88); the limits of parsing (C04, C05). *)
From Coq Require Import ZArith List Bool String Lia QArith Qabs.
From Coq Require Import ZifyBool ZifyNat.
From Verif Require Import Rust Tables Model_Base Model_Round Model_Decimal Model_Arith Model_Serde Spec Spec_Div Lib QLib Sign AddSub Basics Round RoundTo RoundQ Conv Scan Parse ParseMain ParseThms Tests Spec_History Sound Witness Prop_Parse Prop_Sound Prop_Exact2.
Import ListNotations.
Open Scope Z_scope.
Ltac Zify.zify_post_hook ::= Z.div_mod_to_equations.

(** A position as the 8-bit counter sees it. *)
Definition wrapped (f : Z) : Z := (f + 128) mod 256 - 128.
(** The same decimal with another count of fractional digits. *)
Definition with_frac (a : fd) (w : Z) : fd := mkfd (fd_intg a) w (fd_lsu a).

Lemma as_i8_wrapped f : as_i8 f = wrapped f.
Proof. unfold as_i8, wrapped. lia. Qed.
Lemma wrapped_range f : -128 <= wrapped f <= 127.
Proof. unfold wrapped. lia. Qed.
Lemma get_units_negative m w : -128 <= w < 0 -> if -8 <=? w then get_units m w = Ret 0 else exists p, get_units m w = Panic p.
Proof.
  intros H. unfold get_units. destruct (Z.leb_spec (-8) w) as [L|L].
  - rewrite i8_ok by lia. mret. rewrite div9_ok by lia. f_equal. lia.
  - destruct (Z.leb_spec (-128) (w + 8)) as [B|B]; [|lia]. rewrite i8_ok by lia. mret. unfold div9. rewrite get_out by lia. eexists. reflexivity.
Qed.
Lemma usize_under m F G : 0 <= G < F -> F <= 100 -> usize m (G - F) = match m with Debug => Panic POverflow | Release => Ret (18446744073709551616 + G - F) end.
Proof.
  intros H1 H2. unfold usize, u64, chk. replace ((0 <=? G - F) && (G - F <=? 18446744073709551615)) with false by lia. destruct m; [reflexivity|]. f_equal. lia.
Qed.

(** C88: a position above 127 is taken modulo 256, between -128 and 127. If what
    is left is no less than the present digits, it is rounded to that
    instead; if it is less, the digits are only relabelled, or the call panics;
    and if it is between -8 and -1 and there are no fractional digits, a
    decimal with a negative number of digits comes back. *)
Theorem C88_large_positions : forall m a res f, wf a -> 127 < f ->
  let w := wrapped f in
  (frac_digits a <= w -> round_to m a res f = round_to m a res w /\ round m a f = round m a w) /\
  (0 <= w < frac_digits a -> units_for w = fu a -> round_to m a res f = Ret (with_frac a w) /\ round m a f = Ret (with_frac a w)) /\
  (0 <= w < frac_digits a -> units_for w < fu a -> exists p p', round_to m a res f = Panic p /\ round m a f = Panic p') /\
  (-8 <= w < 0 -> frac_digits a = 0 -> round_to m a res f = Ret (with_frac a w) /\ round m a f = Ret (with_frac a w) /\ ~ wf (with_frac a w)) /\
  (w < 0 -> w < -8 \/ 0 < frac_digits a -> exists p p', round_to m a res f = Panic p /\ round m a f = Panic p').
Proof.
  intros m a res f Ha Hf w. pose proof (wf_counts a Ha) as (Hi & Hfr & HI & HF & HN). pose proof (wrapped_range f) as Hw. fold w in Hw.
  pose proof (wf_zlen a Ha) as L.
  assert (RT : round_to m a res f = (rfu <- get_units m w ;;
     if rfu =? fu a then Ret (with_frac a w)
     else start <- usize m (rfu - fu a) ;; s <- slice (fd_lsu a) 0 (fu a + iu a) ;; l <- write_slice zero_units start (rfu + iu a) s ;; Ret (mkfd (fd_intg a) w l))).
  { unfold round_to. rewrite intg_units_ok, frac_units_ok by assumption. mret. mret. cbv zeta. cbn [fd_intg fd_frac fd_lsu set_zero reset_units]. unfold frac. fold (frac_digits a).
    replace (f >=? frac_digits a) with true by lia. rewrite as_i8_wrapped. reflexivity. }
  assert (RI : round m a f = (rfu <- get_units m w ;;
     if rfu =? fu a then Ret (with_frac a w)
     else dest <- usize m (rfu - fu a) ;; l <- copy_within (fd_lsu a) 0 (fu a + iu a) dest ;; Ret (mkfd (fd_intg a) w l))).
  { unfold round. rewrite intg_units_ok, frac_units_ok by assumption. mret. mret. cbv zeta. unfold frac. fold (frac_digits a).
    replace (f >=? frac_digits a) with true by lia. rewrite as_i8_wrapped. reflexivity. }
  assert (LESS : forall G, get_units m w = Ret G -> 0 <= G < fu a -> exists p p', round_to m a res f = Panic p /\ round m a f = Panic p').
  { intros G EG HG. rewrite RT, RI, EG. rewrite !bind_Ret. replace (G =? fu a) with false by lia. rewrite usize_under by lia.
    destruct m; [do 2 eexists; split; reflexivity|]. rewrite !bind_Ret. rewrite slice_ok by lia. rewrite bind_Ret.
    assert (W : forall s, exists p, write_slice zero_units (18446744073709551616 + G - fu a) (G + iu a) s = Panic p).
    { intros s. unfold write_slice. rewrite zlen_zero_units. replace ((0 <=? 18446744073709551616 + G - fu a) && (18446744073709551616 + G - fu a <=? G + iu a)) with false by lia.
      cbn [andb]. eexists. reflexivity. }
    destruct (W (firstn (Z.to_nat (fu a + iu a - 0)) (skipn (Z.to_nat 0) (fd_lsu a)))) as [p Ep]. rewrite Ep.
    assert (C : exists p, copy_within (fd_lsu a) 0 (fu a + iu a) (18446744073709551616 + G - fu a) = Panic p).
    { unfold copy_within. rewrite L.
      match goal with |- exists p, (if ?c then _ else _) = _ => replace c with false by lia end. eexists. reflexivity. }
    destruct C as [p' Ep']. rewrite Ep'. do 2 eexists. split; reflexivity. }
  split; [|split; [|split; [|split]]].
  - intros H. rewrite RT, RI. clear RT RI LESS. split.
    + unfold round_to. rewrite intg_units_ok, frac_units_ok by assumption. rewrite !bind_Ret. cbv zeta. cbn [fd_intg fd_frac fd_lsu set_zero reset_units]. unfold frac. fold (frac_digits a).
      replace (w >=? frac_digits a) with true by lia. rewrite as_i8_id by lia. reflexivity.
    + unfold round. rewrite intg_units_ok, frac_units_ok by assumption. rewrite !bind_Ret. cbv zeta. unfold frac. fold (frac_digits a).
      replace (w >=? frac_digits a) with true by lia. rewrite as_i8_id by lia. reflexivity.
  - intros H E. rewrite RT, RI, get_units_ok by lia. rewrite !bind_Ret, E, Z.eqb_refl. auto.
  - intros H E. apply (LESS (units_for w)); [apply get_units_ok; lia|]. split; [unfold units_for; lia|exact E].
  - intros H E. pose proof (get_units_negative m w ltac:(lia)) as GU. replace (-8 <=? w) with true in GU by lia. assert (E0 : fu a = 0) by (unfold fu; rewrite E; reflexivity).
    rewrite RT, RI, GU, E0. rewrite !bind_Ret. split; [reflexivity|]. split; [reflexivity|]. intros W. pose proof (wf_frac _ W) as X. cbn in X. lia.
  - intros H1 H2. pose proof (get_units_negative m w ltac:(lia)) as GU. destruct (Z.leb_spec (-8) w) as [B|B].
    + apply (LESS 0 GU). destruct H2 as [H2|H2]; [lia|]. unfold fu, units_for. lia.
    + destruct GU as [p Ep]. rewrite RT, RI, Ep. do 2 eexists. split; reflexivity.
Qed.
Print Assumptions C88_large_positions.

(** So whatever the position, a decimal that [round_to] returns for a position above
    127 denotes the number rounded, with the wrapped count of digits; unless that is negative it is well-formed. *)
Theorem C88_large_positions_keep_the_number : forall m a res f d, wf a -> 127 < f -> round_to m a res f = Ret d ->
  frac_digits d = wrapped f /\ neg d = neg a /\ (0 <= wrapped f -> wf d /\ (value d == value a)%Q) /\ (wrapped f < 0 -> frac_digits a = 0 /\ ~ wf d).
Proof.
  intros m a res f d Ha Hf H. pose proof (wf_counts a Ha) as (Hi & Hfr & HI & HF & HN). destruct (C88_large_positions m a res f Ha Hf) as (P1 & P2 & P3 & P4 & P5). set (w := wrapped f) in *.
  pose proof (wrapped_range f) as Hw. fold w in Hw.
  destruct (Z.lt_ge_cases w 0) as [N|N].
  - destruct (Z.lt_ge_cases w (-8)) as [N8|N8]; [destruct (P5 N (or_introl N8)) as (p & _ & E & _); rewrite E in H; discriminate H|].
    destruct (Z.eq_dec (frac_digits a) 0) as [E0|E0]; [|destruct (P5 N ltac:(right; lia)) as (p & _ & E & _); rewrite E in H; discriminate H].
    destruct (P4 ltac:(lia) E0) as (E & _ & NW). assert (d = with_frac a w) as -> by congruence. split; [reflexivity|]. split; [reflexivity|]. split; [lia|auto].
  - destruct (Z.lt_ge_cases w (frac_digits a)) as [B|B].
    + destruct (Z.eq_dec (units_for w) (fu a)) as [EU|NU].
      * destruct (P2 ltac:(lia) EU) as (E & _). assert (d = with_frac a w) as -> by congruence. split; [reflexivity|]. split; [reflexivity|]. split; [|lia]. intros _.
        assert (IU : iu (with_frac a w) = iu a) by reflexivity. assert (FU : fu (with_frac a w) = fu a) by exact EU.
        split; [constructor; rewrite ?IU, ?FU; cbn; [apply Ha|apply Ha|apply Ha|lia|lia]|].
        unfold value, magnitude. rewrite IU, FU. reflexivity.
      * assert (units_for w < fu a) by (unfold fu, units_for in *; lia). destruct (P3 ltac:(lia) ltac:(assumption)) as (p & _ & E & _). rewrite E in H. discriminate H.
    + destruct (P1 B) as (E & _). rewrite E in H. destruct (round_to_keeps m a res w d Ha ltac:(lia) H) as (W & V & F & Ng). split; [exact F|]. split; [exact Ng|]. split; [auto|lia].
Qed.
Print Assumptions C88_large_positions_keep_the_number.

(** The two lowest positions: a debug build panics; in a release build
    the lowest drops the fractional digits (instead of leaving zero), and the next panics. *)
Theorem C88_lowest_positions : forall a res, wf a ->
  (exists p p', round_to Debug a res (-9223372036854775808) = Panic p /\ round Debug a (-9223372036854775808) = Panic p') /\
  (forall m, exists p p', round_to m a res (-9223372036854775807) = Panic p /\ round m a (-9223372036854775807) = Panic p') /\
  exists d, round_to Release a res (-9223372036854775808) = Ret d /\ (clean a -> round Release a (-9223372036854775808) = Ret d) /\
    wf d /\ (value d == truncate_at (value a) 0)%Q /\ frac_digits d = 0 /\ neg d = neg a.
Proof.
  intros a res Ha. pose proof (wf_counts a Ha) as (Hi & Hfr & HI & HF & HN). pose proof (wf_zlen a Ha) as L. pose proof (wf_uok a Ha) as U.
  assert (BO : forall A B (p : panic) (k : A -> outcome B), bind (Panic p) k = Panic p) by reflexivity.
  destruct (drop_units (fd_lsu a) (fu a) (iu a) 0 U L) as (s & l2 & Es & Ew & U2 & L2 & Z2); [lia..|]. rewrite Z.sub_0_r in Es. rewrite Z.add_0_l in Ew.
  split; [|split].
  - unfold round_to, round. rewrite !intg_units_ok, !frac_units_ok by assumption. rewrite !bind_Ret. cbv zeta. unfold frac. fold (frac_digits a).
    replace (-9223372036854775808 >=? frac_digits a) with false by lia. do 2 eexists. split; reflexivity.
  - intros m. unfold round_to, round. rewrite !intg_units_ok, !frac_units_ok by assumption. rewrite !bind_Ret. cbv zeta. unfold frac. fold (frac_digits a).
    replace (-9223372036854775807 >=? frac_digits a) with false by lia. change (-9223372036854775807 <? 0) with true. cbv iota.
    destruct m; [do 2 eexists; split; reflexivity|].
    change (isize Release (- -9223372036854775807)) with (Ret 9223372036854775807). rewrite !bind_Ret. change (isize Release (9223372036854775807 + 1)) with (Ret (-9223372036854775808)). rewrite !bind_Ret.
    rewrite intg_ok. replace (-9223372036854775808 >? int_digits a) with false by lia.
    cbn [fd_intg fd_frac fd_lsu set_zero reset_units]. rewrite Es, bind_Ret, Ew, bind_Ret.
    assert (R : forall d I, exists p, round_half_up Release d I 0 9223372036854775807 0 0 = Panic p).
    { intros d I. unfold round_half_up. change (as_i8 9223372036854775807) with (-1). unfold div9. rewrite get_out by lia. eexists. reflexivity. }
    destruct (R (mkfd (fd_intg a) 0 l2) (iu a)) as [p Ep]. rewrite Ep. exists p.
    destruct (copy_within (fd_lsu a) (fu a) (fu a + iu a) 0) as [l3|p3]; [|eexists; split; reflexivity]. rewrite bind_Ret.
    destruct (fill l3 (iu a) (fu a + iu a) 0) as [l4|p4]; [|eexists; split; reflexivity]. rewrite bind_Ret.
    destruct (R (mkfd (fd_intg a) (frac_digits a) l4) (iu a)) as [p4 Ep4]. rewrite Ep4. eexists; split; reflexivity.
  - assert (EQ : forall d I, round_half_up Release d I 0 (-9223372036854775808) 0 0 = round_half_up Release d I 0 0 0 0) by reflexivity.
    pose proof (round_half_up_ok Release (mkfd (fd_intg a) 0 l2) (iu a) 0 0 0 0 U2 L2 ltac:(lia) ltac:(lia) ltac:(lia) ltac:(lia) ltac:(lia) ltac:(lia) ltac:(lia) (wf_intg a Ha)) as T.
    cbv zeta in T. cbn [fd_lsu] in T. change (0 / 9) with 0 in T. change (0 mod 9) with 0 in T. rewrite Z.pow_0_r, Z.mul_1_l, Z.add_0_r, Z.sub_0_r in T.
    assert (SM : rounded (sg l2 0 (iu a)) 0 0 = magnitude a / base ^ fu a).
    { unfold rounded. cbn [Z.eqb]. rewrite Z.add_0_r. rewrite magnitude_sg, Z.add_comm, sg_app by lia. rewrite (Z.mul_comm (base ^ fu a)), Z.div_add by (pose proof (pow_base_pos (fu a) ltac:(lia)); lia).
      pose proof (sg_bound (fd_lsu a) 0 (fu a) U ltac:(lia)) as B. rewrite Z.div_small by lia. rewrite Z.add_0_l. apply sg_ext. intros k Hk. rewrite Z2 by lia.
      replace (0 + k <? 0 + iu a) with true by lia. f_equal. lia. }
    rewrite SM in T.
    assert (MB : 0 <= magnitude a / base ^ fu a < base ^ iu a).
    { rewrite <- SM. unfold rounded. cbn [Z.eqb]. rewrite Z.add_0_r. apply sg_bound; [exact U2|lia]. }
    destruct T as [(d & E & R)|(_ & I9 & B9)]; [|exfalso; rewrite I9 in MB; lia].
    change (neg (mkfd (fd_intg a) 0 l2)) with (neg a) in R.
    apply (rounding_result a l2 (iu a) 0 _ 0 d) in R; auto; try lia; [|intros _ k Hk; rewrite Z2 by lia; replace (k <? 0 + iu a) with false by lia; reflexivity].
    assert (RTM : round_to Release a res (-9223372036854775808) = Ret d).
    { unfold round_to. rewrite !intg_units_ok, !frac_units_ok by assumption. rewrite !bind_Ret. cbv zeta. unfold frac. fold (frac_digits a).
      replace (-9223372036854775808 >=? frac_digits a) with false by lia. change (-9223372036854775808 <? 0) with true. cbv iota.
      change (isize Release (- -9223372036854775808)) with (Ret (-9223372036854775808)). rewrite !bind_Ret. change (isize Release (-9223372036854775808 + 1)) with (Ret (-9223372036854775807)). rewrite !bind_Ret.
      rewrite intg_ok. replace (-9223372036854775807 >? int_digits a) with false by lia. cbn [fd_intg fd_frac fd_lsu set_zero reset_units]. rewrite Es, bind_Ret, Ew, bind_Ret, EQ. exact E. }
    exists d. split; [exact RTM|]. split.
    + intros C.
      rewrite (round_in_place Release a res) by (try assumption; lia). exact RTM.
    + destruct R as (W & N & F & M & _). split; [exact W|]. split; [|split; [exact F|exact N]].
      rewrite (truncate_at_value a 0 Ha) by lia. replace (9 * fu a - 0) with (9 * fu a) by lia. rewrite Z.pow_mul_r by lia. change (10 ^ 9) with base.
      assert (Ef : fu d = 0) by (unfold fu, frac_digits; now rewrite F).
      rewrite <- N. apply (value_scaled d _ 0); [exact W|lia|]. rewrite M, Ef. change (10 ^ (9 * 0 - 0)) with 1. lia.
Qed.
Print Assumptions C88_lowest_positions.
Example C88_example : let a := dec "12.345" in wf a /\
  (forall m, round_to m a zero 258 = Ret (with_frac a 2) /\ to_string m (with_frac a 2) (-1) = Ret (bytes "12.34")) /\
  (forall m, exists d, round_to m a zero 260 = Ret d /\ to_string m d (-1) = Ret (bytes "12.3450")) /\
  (forall m, round_to m (dec "7") zero 250 = Ret (with_frac (dec "7") (-6))) /\
  exists d, round_to Release (dec "-12.945") zero (-9223372036854775808) = Ret d /\ (value d == -12)%Q.
Proof.
  split; [wfd|]. split; [intros []; split; vm_compute; reflexivity|]. split; [intros []; eexists; (split; [vm_compute; reflexivity|vm_compute; reflexivity])|].
  split; [intros []; vm_compute; reflexivity|]. eexists. split; [vm_compute; reflexivity|]. vm_compute; reflexivity.
Qed.

(** Debug histories with every position, but for those that wrap to -8 ... -1:
    after every call that returns, every variable holds a well-formed decimal. *)
Definition every_call (st : state) (c : call) : Prop :=
  match c with
  | FromI64 _ n => -9223372036854775808 <= n <= 9223372036854775807
  | FromU64 _ n => 0 <= n <= 18446744073709551615
  | RoundTo _ _ f | Round _ f => -9223372036854775808 <= f <= 9223372036854775807 /\ (127 < f -> wrapped f < -8 \/ 0 <= wrapped f)
  | _ => True
  end.
Lemma with_frac_wf a w : wf a -> 0 <= w -> units_for w = fu a -> w <= 127 -> wf (with_frac a w).
Proof.
  intros Ha W EU W2. pose proof (wf_counts a Ha) as (Hi & Hfr & HI & HF & HN). assert (IU : iu (with_frac a w) = iu a) by reflexivity. assert (FU : fu (with_frac a w) = fu a) by exact EU.
  constructor; rewrite ?IU, ?FU; cbn; [apply Ha|apply Ha|apply Ha|lia|lia].
Qed.
Lemma round_every m a f d : wf a -> m = Debug \/ -9223372036854775808 < f -> -9223372036854775808 <= f -> (127 < f -> wrapped f < -8 \/ 0 <= wrapped f) ->
  (round m a f = Ret d \/ exists res, round_to m a res f = Ret d) -> wf d.
Proof.
  intros Ha HM Hf HW H. pose proof (wf_counts a Ha) as (Hi & Hfr & HI & HF & HN). pose proof (wrapped_range f) as Hw.
  destruct (Z.le_gt_cases f 127) as [S|B].
  - destruct (C88_lowest_positions a zero Ha) as ((p1 & p2 & _ & E2) & L2 & _). destruct (L2 m) as (q1 & q2 & _ & F2).
    destruct H as [H|[res H]].
    + destruct (Z.eq_dec f (-9223372036854775808)) as [->|N1]; [destruct HM as [->|HM]; [rewrite E2 in H; discriminate H|lia]|].
      destruct (Z.eq_dec f (-9223372036854775807)) as [->|N2]; [rewrite F2 in H; discriminate H|]. eapply round_any; [exact Ha| |exact H]. lia.
    + destruct (C88_lowest_positions a res Ha) as ((p3 & p4 & E3 & _) & L4 & _). destruct (L4 m) as (q3 & q4 & F3 & _).
      destruct (Z.eq_dec f (-9223372036854775808)) as [->|N1]; [destruct HM as [->|HM]; [rewrite E3 in H; discriminate H|lia]|].
      destruct (Z.eq_dec f (-9223372036854775807)) as [->|N2]; [rewrite F3 in H; discriminate H|]. eapply round_to_any; [exact Ha| |exact H]. lia.
  - specialize (HW B).
    assert (K : forall res, (round m a f = Ret d \/ round_to m a res f = Ret d) -> wf d).
    { clear H. intros res H. destruct (C88_large_positions m a res f Ha ltac:(lia)) as (P1 & P2 & P3 & P4 & P5). set (w := wrapped f) in *.
      assert (PP : (exists p p', round_to m a res f = Panic p /\ round m a f = Panic p') -> wf d).
      { intros (p & p' & E & E'). exfalso. destruct H as [H|H]; congruence. }
      destruct (Z.lt_ge_cases w 0) as [N|N]; [apply PP, P5; [exact N|lia]|].
      destruct (Z.lt_ge_cases w (frac_digits a)) as [C|C].
      - destruct (Z.eq_dec (units_for w) (fu a)) as [EU|NU].
        + destruct (P2 ltac:(lia) EU) as (E & E'). assert (d = with_frac a w) as -> by (destruct H; congruence). apply with_frac_wf; auto; lia.
        + apply PP, P3; [lia|]. unfold fu, units_for in *; lia.
      - destruct (P1 C) as (E & E'). destruct H as [H|H]; [rewrite E' in H; eapply round_any; [exact Ha| |exact H]; lia|rewrite E in H; eapply round_to_any; [exact Ha| |exact H]; lia]. }
    destruct H as [H|[res H]]; [apply (K zero); auto|apply (K res); auto].
Qed.
Theorem C88_histories : forall cs st, history every_call Debug (fun _ => zero) cs st -> forall i, wf (st i).
Proof.
  intros cs st H.
  assert (G : forall st0, (forall i, wf (st0 i)) -> history every_call Debug st0 cs st -> forall i, wf (st i)).
  { clear H. intros st0 R H. induction H as [st1|st1 c cs rs d st2 A E H IH]; [exact R|]. apply IH. intros i. unfold write. destruct (Nat.eqb i (target c)); [|apply R]. clear IH H.
    assert (SC : (forall i k f, c <> RoundTo i k f) -> (forall k f, c <> Round k f) -> sound_call Debug st1 c).
    { intros N1 N2. destruct c; cbn in *; auto; try discriminate; [exfalso; eapply N1; reflexivity|exfalso; eapply N2; reflexivity]. }
    destruct c; try (eapply sound_step; [exact R|apply SC; intros; discriminate|exact E]); cbn [perform every_call] in *.
    - apply bind_inv in E. destruct E as (d' & E & E'). injection E' as <- <-. eapply round_every; [apply R|left; reflexivity| |apply A|right; eexists; exact E]. lia.
    - apply bind_inv in E. destruct E as (d' & E & E'). injection E' as <- <-. eapply round_every; [apply R|left; reflexivity| |apply A|left; exact E]. lia. }
  apply (G (fun _ => zero)); [intros i; apply wf_zero|exact H].
Qed.
Print Assumptions C88_histories.
(** The exception is needed: 250 wraps to -6. *)
Example C88_histories_needs : exists st, history (fun _ _ => True) Debug (fun _ => zero) [FromI64 0 7; Round 0 250] st /\ ~ wf (st O).
Proof.
  eexists. split; [econstructor; [exact I|vm_compute; reflexivity|]; econstructor; [exact I|vm_compute; reflexivity|constructor]|]. intros W. pose proof (wf_frac _ W) as X. cbn in X. lia.
Qed.
Example C88_histories_case : exists st, history every_call Debug (fun _ => zero) [Parse 0 (bytes "12.345") true; RoundTo 0 1 258; Round 0 516] st /\
  to_string Debug (st 1%nat) (-1) = Ret (bytes "12.34") /\ to_string Debug (st O) (-1) = Ret (bytes "12.3450").
Proof.
  eexists. split; [|split].
  - econstructor; [exact I|vm_compute; reflexivity|]. econstructor; [cbn; unfold wrapped; lia|vm_compute; reflexivity|]. econstructor; [cbn; unfold wrapped; lia|vm_compute; reflexivity|constructor].
  - vm_compute; reflexivity.
  - vm_compute; reflexivity.
Qed.

(** C04: 127 digits, the limit of [C04_parsing_is_total_and_exact_partial], is sharp: a numeral of
    128 digits makes both builds panic, the release build with an index out of bounds. *)
Theorem C04_limit_is_sharp_refuted : exists n, numeral_ok n /\ zlength (n_int n ++ n_frac n)%list = 128 /\ n_exp n = None /\
  from_str Debug (numeral_bytes n) = Panic POverflow /\ from_str Release (numeral_bytes n) = Panic PIndex.
Proof.
  exists (mknum None (repeat 1 123) true (repeat 2 5) None). split.
  - split; [apply Forall_forall; intros x X; apply repeat_spec in X; subst x; unfold is_digit; lia|]. split; [apply Forall_forall; intros x X; apply repeat_spec in X; subst x; unfold is_digit; lia|].
    split; [discriminate|]. split; [discriminate|exact I].
  - split; [vm_compute; reflexivity|]. split; [reflexivity|]. split; vm_compute; reflexivity.
Qed.
Print Assumptions C04_limit_is_sharp_refuted.

(** C05: in a debug build strings of every length. *)
Theorem C05_debug_builds_partial : forall t1 t2 r1 r2 bs d, wf t1 -> wf t2 -> from_bytes_str Debug t1 bs r1 = Ret (Ok tt, d) ->
  exists d', from_bytes_str Debug t2 bs r2 = Ret (Ok tt, d') /\ (value d' == value d)%Q /\ neg d' = neg d /\ int_digits d' = int_digits d /\ frac_digits d' = frac_digits d.
Proof.
  intros t1 t2 r1 r2 bs d W1 W2 H.
  assert (M : mantissa_digits bs <= 127).
  { destruct (C04_debug_builds_partial t1 bs r1 W1) as [(n & x & OK & WL & -> & _)|(_ & [(x & E)|(_ & E)])]; [|rewrite E in H; discriminate H|rewrite E in H; discriminate H].
    rewrite (numeral_mantissa_digits n OK). destruct WL as [_ WL]. unfold numeral_digits in WL. lia. }
  destruct (C82_parsing_into_used_targets Debug t1 t2 r1 r2 bs d W1 W2 M H) as (d2 & E & _ & _ & (V & N & I & F) & _). exists d2. split; [exact E|]. split; [symmetry; exact V|]. split; [congruence|]. split; congruence.
Qed.
Print Assumptions C05_debug_builds_partial.
Example C05_debug_example : exists d d', from_bytes_str Debug (dec "-123456789012.5") (bytes "+7.50e1") false = Ret (Ok tt, d) /\
  from_bytes_str Debug zero (bytes "+7.50e1") true = Ret (Ok tt, d') /\ d <> d' /\ to_string Debug d (-1) = Ret (bytes "75.0").
Proof. do 2 eexists. split; [vm_compute; reflexivity|]. split; [vm_compute; reflexivity|]. split; [vm_compute; discriminate|]. vm_compute; reflexivity. Qed.
