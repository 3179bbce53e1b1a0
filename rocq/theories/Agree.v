(** * A debug build behaves as a release build, or fails one of its own checks.

    [sim o o']: [o] is [o'] (the same value returned, or the same panic), or
    [o] is a failed overflow check or a failed [debug_assert!]. Every definition
    of the model is shown to be related to itself at the two build profiles. *)
From Coq Require Import ZArith List Bool.
From Verif Require Import Rust Tables Model_Base Model_Cmp Model_Round Model_Decimal Model_Arith Model_Serde.
Import ListNotations.
Open Scope Z_scope.

Definition sim {A} (o o' : outcome A) : Prop := o = o' \/ o = Panic POverflow \/ o = Panic PAssert.

Lemma sim_refl A (o : outcome A) : sim o o.
Proof. left. reflexivity. Qed.
Lemma sim_ret A (o o' : outcome A) : sim o o' -> forall y, o = Ret y -> o' = Ret y.
Proof. intros [H|[H|H]] y E; congruence. Qed.
Lemma sim_bind A B (o o' : outcome A) (k k' : A -> outcome B) :
  sim o o' -> (forall x, sim (k x) (k' x)) -> sim (bind o k) (bind o' k').
Proof.
  intros [->|[->| ->]] K; [|right; left; reflexivity|right; right; reflexivity].
  destruct o' as [x|p]; [apply K|apply sim_refl].
Qed.
Lemma sim_chk lo hi z : sim (chk Debug lo hi z) (chk Release lo hi z).
Proof. unfold chk. destruct (_ && _); [apply sim_refl|right; left; reflexivity]. Qed.
Lemma sim_i8 z : sim (i8 Debug z) (i8 Release z). Proof. apply sim_chk. Qed.
Lemma sim_i32 z : sim (i32 Debug z) (i32 Release z). Proof. apply sim_chk. Qed.
Lemma sim_i64 z : sim (i64 Debug z) (i64 Release z). Proof. apply sim_chk. Qed.
Lemma sim_isize z : sim (isize Debug z) (isize Release z). Proof. apply sim_chk. Qed.
Lemma sim_u64 z : sim (u64 Debug z) (u64 Release z). Proof. apply sim_chk. Qed.
Lemma sim_usize z : sim (usize Debug z) (usize Release z). Proof. apply sim_chk. Qed.
Lemma sim_assert b : sim (debug_assert Debug b) (debug_assert Release b).
Proof. destruct b; [apply sim_refl|right; right; reflexivity]. Qed.
Create HintDb sim discriminated.
#[global] Hint Resolve sim_i8 sim_i32 sim_i64 sim_isize sim_u64 sim_usize sim_assert : sim.

(** One step: reflexivity, a known function, a sequence, a case distinction. *)
Ltac sim1 := match goal with
  | |- sim ?a ?a => apply sim_refl
  | |- sim (bind _ _) (bind _ _) => apply sim_bind; [|intros ?]
  | |- sim (let '(_, _) := ?x in _) _ => destruct x
  | |- sim (if ?c then _ else _) _ => destruct c
  | |- sim (match ?x with _ => _ end) _ => destruct x
  | |- sim _ _ => solve [auto with sim]
  | |- sim (i64_div _ _ _) _ => unfold i64_div
  | |- sim (i32_div _ _ _) _ => unfold i32_div
  | |- sim (i32_rem _ _ _) _ => unfold i32_rem
  end.
Ltac sims := repeat (cbv beta iota zeta; sim1).

Ltac dosim f := unfold f; sims.

Lemma s_get_units d : sim (get_units Debug d) (get_units Release d). Proof. dosim get_units. Qed.
#[global] Hint Resolve s_get_units : sim.
Lemma s_intg_units d : sim (intg_units Debug d) (intg_units Release d). Proof. dosim intg_units. Qed.
Lemma s_frac_units d : sim (frac_units Debug d) (frac_units Release d). Proof. dosim frac_units. Qed.
#[global] Hint Resolve s_intg_units s_frac_units : sim.
Lemma s_cmp_abs a b : sim (cmp_abs Debug a b) (cmp_abs Release a b). Proof. dosim cmp_abs. Qed.
#[global] Hint Resolve s_cmp_abs : sim.
Lemma s_cmp a b : sim (cmp Debug a b) (cmp Release a b). Proof. dosim cmp. Qed.
#[global] Hint Resolve s_cmp : sim.
Lemma s_eq a b : sim (eq Debug a b) (eq Release a b). Proof. dosim eq. Qed.
Lemma s_lt a b : sim (lt Debug a b) (lt Release a b). Proof. dosim lt. Qed.
Lemma s_gt a b : sim (gt Debug a b) (gt Release a b). Proof. dosim gt. Qed.
#[global] Hint Resolve s_eq s_lt s_gt : sim.

(** Rounding *)
Lemma s_add_with_carry a b c : sim (add_with_carry Debug a b c) (add_with_carry Release a b c). Proof. dosim add_with_carry. Qed.
Lemma s_round_arm u md h : sim (round_arm Debug u md h) (round_arm Release u md h). Proof. dosim round_arm. Qed.
#[global] Hint Resolve s_add_with_carry s_round_arm : sim.
Lemma s_round_unit p u : sim (round_unit Debug p u) (round_unit Release p u). Proof. dosim round_unit. Qed.
#[global] Hint Resolve s_round_unit : sim.
Lemma s_carry_loop n : forall l i c, sim (carry_loop Debug n l i c) (carry_loop Release n l i c).
Proof. induction n; intros; cbn [carry_loop]; sims. Qed.
#[global] Hint Resolve s_carry_loop : sim.
Lemma s_round_half_up d iu fu t rf c : sim (round_half_up Debug d iu fu t rf c) (round_half_up Release d iu fu t rf c).
Proof. dosim round_half_up. Qed.
#[global] Hint Resolve s_round_half_up : sim.
Lemma s_round d f : sim (round Debug d f) (round Release d f). Proof. dosim round. Qed.
Lemma s_round_to d r f : sim (round_to Debug d r f) (round_to Release d r f). Proof. dosim round_to. Qed.

(** Conversions *)
Lemma s_lsu_to_i64 d : sim (lsu_to_i64 Debug d) (lsu_to_i64 Release d). Proof. dosim lsu_to_i64. Qed.
Lemma s_lsu_to_u64 d : sim (lsu_to_u64 Debug d) (lsu_to_u64 Release d). Proof. dosim lsu_to_u64. Qed.
#[global] Hint Resolve s_round s_round_to s_lsu_to_i64 s_lsu_to_u64 : sim.
Lemma s_as_i64 d : sim (as_i64 Debug d) (as_i64 Release d). Proof. dosim as_i64. Qed.
Lemma s_as_u64 d : sim (as_u64 Debug d) (as_u64 Release d). Proof. dosim as_u64. Qed.
Lemma s_from_u64_loop n : forall s l i, sim (from_u64_loop Debug n s l i) (from_u64_loop Release n s l i).
Proof. induction n; intros; cbn [from_u64_loop]; sims. Qed.
#[global] Hint Resolve s_from_u64_loop : sim.
Lemma s_from_u64 s : sim (from_u64 Debug s) (from_u64 Release s). Proof. dosim from_u64. Qed.
#[global] Hint Resolve s_from_u64 : sim.
Lemma s_from_i64 s : sim (from_i64 Debug s) (from_i64 Release s). Proof. dosim from_i64. Qed.
Lemma s_hash d : sim (hash Debug d) (hash Release d). Proof. dosim hash. Qed.

(** Addition, subtraction, multiplication *)
Lemma s_sub_with_borrow a b c : sim (sub_with_borrow Debug a b c) (sub_with_borrow Release a b c). Proof. dosim sub_with_borrow. Qed.
#[global] Hint Resolve s_sub_with_borrow : sim.
Lemma s_add_loop n : forall a b li ri r si c, sim (add_loop Debug n a b li ri r si c) (add_loop Release n a b li ri r si c).
Proof. induction n; intros; cbn [add_loop]; sims. Qed.
Lemma s_add_rest n : forall a li r si c, sim (add_rest Debug n a li r si c) (add_rest Release n a li r si c).
Proof. induction n; intros; cbn [add_rest]; sims. Qed.
Lemma s_sub_low n : forall b ri r si c, sim (sub_low Debug n b ri r si c) (sub_low Release n b ri r si c).
Proof. induction n; intros; cbn [sub_low]; sims. Qed.
Lemma s_sub_loop n : forall a b li ri r si c, sim (sub_loop Debug n a b li ri r si c) (sub_loop Release n a b li ri r si c).
Proof. induction n; intros; cbn [sub_loop]; sims. Qed.
Lemma s_sub_rest n : forall a li r si c, sim (sub_rest Debug n a li r si c) (sub_rest Release n a li r si c).
Proof. induction n; intros; cbn [sub_rest]; sims. Qed.
Lemma s_negate_units n : forall l i c, sim (negate_units Debug n l i c) (negate_units Release n l i c).
Proof. induction n; intros; cbn [negate_units]; sims. Qed.
#[global] Hint Resolve s_add_loop s_add_rest s_sub_low s_sub_loop s_sub_rest s_negate_units : sim.
Lemma s_add_abs a b r : sim (add_abs Debug a b r) (add_abs Release a b r). Proof. dosim add_abs. Qed.
Lemma s_sub_abs a b r : sim (sub_abs Debug a b r) (sub_abs Release a b r). Proof. dosim sub_abs. Qed.
Lemma s_mul_row l : forall li ri s rv r c x, sim (mul_row Debug l li ri s rv r c x) (mul_row Release l li ri s rv r c x).
Proof. induction l; intros; cbn [mul_row]; sims. Qed.
#[global] Hint Resolve s_add_abs s_sub_abs s_mul_row : sim.
Lemma s_mul_rows l : forall lvs ri s r, sim (mul_rows Debug l lvs ri s r) (mul_rows Release l lvs ri s r).
Proof. induction l; intros; cbn [mul_rows]; sims. Qed.
#[global] Hint Resolve s_mul_rows : sim.
Lemma s_mul_abs a b r : sim (mul_abs Debug a b r) (mul_abs Release a b r). Proof. dosim mul_abs. Qed.
#[global] Hint Resolve s_mul_abs : sim.

(** Division and remainder *)
Lemma s_short_div n : forall a d rem i r, sim (short_div Debug n a d rem i r) (short_div Release n a d rem i r).
Proof. induction n; intros; cbn [short_div]; sims. Qed.
Lemma s_norm_units nf l : forall c, sim (norm_units Debug nf l c) (norm_units Release nf l c).
Proof. induction l; intros; cbn [norm_units]; sims. Qed.
Lemma s_qhat_loop n : forall q r d0 d1 u, sim (qhat_loop Debug n q r d0 d1 u) (qhat_loop Release n q r d0 d1 u).
Proof. induction n; intros; cbn [qhat_loop]; sims. Qed.
#[global] Hint Resolve s_short_div s_norm_units s_qhat_loop : sim.
Lemma s_guess_qhat b i d0 d1 : sim (guess_qhat Debug b i d0 d1) (guess_qhat Release b i d0 d1). Proof. dosim guess_qhat. Qed.
Lemma s_mul_sub l : forall q b i c w, sim (mul_sub Debug l q b i c w) (mul_sub Release l q b i c w).
Proof. induction l; intros; cbn [mul_sub]; sims. Qed.
#[global] Hint Resolve s_guess_qhat s_mul_sub : sim.
Lemma s_long_div n : forall b2 rnz d0 d1 b i r, sim (long_div Debug n b2 rnz d0 d1 b i r) (long_div Release n b2 rnz d0 d1 b i r).
Proof. induction n; intros; cbn [long_div]; sims. Qed.
#[global] Hint Resolve s_long_div : sim.
Lemma s_div_abs a b r f : sim (div_abs Debug a b r f) (div_abs Release a b r f). Proof. dosim div_abs. Qed.
Lemma s_short_rem n : forall b d rem i, sim (short_rem Debug n b d rem i) (short_rem Release n b d rem i).
Proof. induction n; intros; cbn [short_rem]; sims. Qed.
Lemma s_mul_sub_zip q w : forall b c o, sim (mul_sub_zip Debug q w b c o) (mul_sub_zip Release q w b c o).
Proof. induction w; intros; destruct b; cbn [mul_sub_zip]; sims. Qed.
#[global] Hint Resolve s_div_abs s_short_rem s_mul_sub_zip : sim.
Lemma s_long_rem n : forall b2 l d0 d1 b i, sim (long_rem Debug n b2 l d0 d1 b i) (long_rem Release n b2 l d0 d1 b i).
Proof. induction n; intros; cbn [long_rem]; sims. Qed.
Lemma s_denorm n : forall b nf rem r z, sim (denorm Debug n b nf rem r z) (denorm Release n b nf rem r z).
Proof. induction n; intros; cbn [denorm]; sims. Qed.
Lemma s_rem_finish r z u f : sim (rem_finish Debug r z u f) (rem_finish Release r z u f). Proof. dosim rem_finish. Qed.
#[global] Hint Resolve s_long_rem s_denorm s_rem_finish : sim.
(** The array read of the assertion at src/arith.rs:903 happens in a debug build
    only, and may be out of bounds there. *)
Definition simr {A} (o o' : outcome A) : Prop := sim o o' \/ o = Panic PIndex.
Lemma simr_sim A (o o' : outcome A) : sim o o' -> simr o o'. Proof. left. assumption. Qed.
Lemma simr_ret A (o o' : outcome A) : simr o o' -> forall y, o = Ret y -> o' = Ret y.
Proof. intros [H|H]; [apply sim_ret, H|congruence]. Qed.
Lemma simr_bind A B (o o' : outcome A) (k k' : A -> outcome B) :
  simr o o' -> (forall x, simr (k x) (k' x)) -> simr (bind o k) (bind o' k').
Proof.
  intros [[->|[->| ->]]| ->] K; [|left; right; left; reflexivity|left; right; right; reflexivity|right; reflexivity].
  destruct o' as [x|p]; [apply K|left; apply sim_refl].
Qed.
Lemma simr_debug_read A l i (k k' : outcome A) : simr k k' ->
  simr (x <- get l i ;; _ <- debug_assert Debug (x =? 0) ;; k)
       (x <- Ret 0 ;; _ <- debug_assert Release (x =? 0) ;; k').
Proof.
  intros H. cbn. unfold get. destruct (_ && _); [|right; reflexivity]. cbn. destruct (_ =? 0); [exact H|left; right; right; reflexivity].
Qed.
Ltac simr1 := match goal with
  | |- simr _ _ => apply simr_sim; solve [sims]
  | |- simr (bind _ _) (bind _ _) => apply simr_bind; [|intros ?]
  | |- simr (let '(_, _) := ?x in _) _ => destruct x
  | |- simr (if ?c then _ else _) _ => destruct c
  | |- simr (match ?x with _ => _ end) _ => destruct x
  end.
Lemma s_rem_abs a b r : simr (rem_abs Debug a b r) (rem_abs Release a b r).
Proof. unfold rem_abs. repeat (cbv beta iota zeta; first [apply simr_debug_read | simr1]). Qed.

Lemma s_add_to a b r : sim (add_to Debug a b r) (add_to Release a b r). Proof. dosim add_to. Qed.
Lemma s_sub_to a b r : sim (sub_to Debug a b r) (sub_to Release a b r). Proof. dosim sub_to. Qed.
Lemma s_mul_to a b r : sim (mul_to Debug a b r) (mul_to Release a b r). Proof. dosim mul_to. Qed.
Lemma s_div_to a b r f : sim (div_to Debug a b r f) (div_to Release a b r f). Proof. dosim div_to. Qed.
Lemma s_rem_to a b r : simr (rem_to Debug a b r) (rem_to Release a b r).
Proof. unfold rem_to. cbv zeta. apply simr_bind; [apply s_rem_abs|]. intros. apply simr_sim. sims. Qed.
#[global] Hint Resolve s_add_to s_sub_to s_mul_to s_div_to : sim.
Lemma s_unwrap o o' : sim o o' -> sim (unwrap_op o) (unwrap_op o').
Proof. intros H. unfold unwrap_op. apply sim_bind; [exact H|]. intros; apply sim_refl. Qed.
Lemma s_unwrap_rem o o' : simr o o' -> simr (unwrap_op o) (unwrap_op o').
Proof. intros H. unfold unwrap_op. apply simr_bind; [exact H|]. intros; apply simr_sim, sim_refl. Qed.
#[global] Hint Resolve s_unwrap : sim.

(** Parsing *)
Lemma s_scan_loop l : forall i d dc la cf ng, sim (scan_loop Debug l i d dc la cf ng) (scan_loop Release l i d dc la cf ng).
Proof. induction l; intros; cbn [scan_loop]; sims. Qed.
Lemma s_exp_digits l : forall e, sim (exp_digits Debug l e) (exp_digits Release l e).
Proof. induction l; intros; cbn [exp_digits]; sims. Qed.
#[global] Hint Resolve s_scan_loop s_exp_digits : sim.
Lemma s_parse_exp l i : sim (parse_exp Debug l i) (parse_exp Release l i). Proof. dosim parse_exp. Qed.
Lemma s_layout f e d : sim (layout Debug f e d) (layout Release f e d). Proof. dosim layout. Qed.
Lemma s_intg_loop n : forall bs la i o c up l, sim (intg_loop Debug n bs la i o c up l) (intg_loop Release n bs la i o c up l).
Proof. induction n; intros; cbn [intg_loop]; sims. Qed.
Lemma s_zero_fill n : forall l u c, sim (zero_fill Debug n l u c) (zero_fill Release n l u c).
Proof. induction n; intros; cbn [zero_fill]; sims. Qed.
Lemma s_heading_fill n : forall l u c, sim (heading_fill Debug n l u c) (heading_fill Release n l u c).
Proof. induction n; intros; cbn [heading_fill]; sims. Qed.
Lemma s_frac_loop n : forall bs la i o c up l, sim (frac_loop Debug n bs la i o c up l) (frac_loop Release n bs la i o c up l).
Proof. induction n; intros; cbn [frac_loop]; sims. Qed.
#[global] Hint Resolve s_parse_exp s_layout s_intg_loop s_zero_fill s_heading_fill s_frac_loop : sim.
Lemma s_convert t bs s f d h : sim (convert Debug t bs s f d h) (convert Release t bs s f d h). Proof. dosim convert. Qed.
#[global] Hint Resolve s_convert : sim.
Lemma s_from_bytes_str t bs r : sim (from_bytes_str Debug t bs r) (from_bytes_str Release t bs r). Proof. dosim from_bytes_str. Qed.
#[global] Hint Resolve s_from_bytes_str : sim.
Lemma s_from_str bs : sim (from_str Debug bs) (from_str Release bs). Proof. dosim from_str. Qed.

(** Formatting *)
Lemma s_intg_unit u b e : sim (intg_unit Debug u b e) (intg_unit Release u b e). Proof. dosim intg_unit. Qed.
#[global] Hint Resolve s_intg_unit : sim.
Lemma s_append_intg n : forall l u b e, sim (append_intg Debug n l u b e) (append_intg Release n l u b e).
Proof. induction n; intros; cbn [append_intg]; sims. Qed.
Lemma s_frac_group dv u f b : sim (frac_group Debug dv u f b) (frac_group Release dv u f b). Proof. dosim frac_group. Qed.
#[global] Hint Resolve s_append_intg s_frac_group : sim.
Lemma s_append_frac n : forall l b f, sim (append_frac Debug n l b f) (append_frac Release n l b f).
Proof. induction n; intros; cbn [append_frac]; sims. Qed.
#[global] Hint Resolve s_append_frac : sim.
Lemma s_append_str_buf d b f : sim (append_str_buf Debug d b f) (append_str_buf Release d b f). Proof. dosim append_str_buf. Qed.
#[global] Hint Resolve s_append_str_buf : sim.
Lemma s_to_string d f : sim (to_string Debug d f) (to_string Release d f). Proof. dosim to_string. Qed.
