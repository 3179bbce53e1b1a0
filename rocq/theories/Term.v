(** * Executions that do not run out of the model's fuel. *)
From Coq Require Import ZArith List Bool Lia.
From Coq Require Import ZifyBool ZifyNat.
From Verif Require Import Rust Tables Model_Base Model_Cmp Model_Round Model_Decimal Model_Arith Model_Serde.
Import ListNotations.
Open Scope Z_scope.

Definition nofuel {A} (o : outcome A) : Prop := o <> Panic PFuel.
Lemma nofuel_ret A (x : A) : nofuel (Ret x). Proof. discriminate. Qed.
Lemma nofuel_bind A B (o : outcome A) (k : A -> outcome B) : nofuel o -> (forall x, o = Ret x -> nofuel (k x)) -> nofuel (bind o k).
Proof. unfold nofuel. destruct o as [x|p]; cbn; intros H K; [exact (K x eq_refl)|congruence]. Qed.

Lemma nofuel_chk m lo hi z : nofuel (chk m lo hi z).
Proof. unfold chk, nofuel. destruct (_ && _), m; discriminate. Qed.
Lemma nofuel_assert m b : nofuel (debug_assert m b).
Proof. destruct m, b; discriminate. Qed.
Lemma nofuel_get l i : nofuel (get l i). Proof. unfold get, nofuel. destruct (_ && _); discriminate. Qed.
Lemma nofuel_set l i v : nofuel (set l i v). Proof. unfold set, nofuel. destruct (_ && _); discriminate. Qed.
Lemma nofuel_slice l i j : nofuel (slice l i j). Proof. unfold slice, nofuel. destruct (_ && _); discriminate. Qed.
Lemma nofuel_write l i j s : nofuel (write_slice l i j s). Proof. unfold write_slice, nofuel. destruct (_ && _); discriminate. Qed.
Create HintDb nofuel discriminated.
#[global] Hint Resolve nofuel_ret nofuel_chk nofuel_assert nofuel_get nofuel_set nofuel_slice nofuel_write : nofuel.

Ltac nf1 := match goal with
  | |- nofuel (Ret _) => apply nofuel_ret
  | |- nofuel (Panic _) => discriminate
  | |- nofuel _ => solve [auto with nofuel]
  | |- nofuel (bind _ _) => apply nofuel_bind; [|intros ? _]
  | |- nofuel (let '(_, _) := ?x in _) => destruct x
  | |- nofuel (if ?c then _ else _) => destruct c
  | |- nofuel (match ?x with _ => _ end) => destruct x
  | |- nofuel (?f _ _ _ _ _ _ _ _) => unfold f
  | |- nofuel (?f _ _ _ _ _ _ _) => unfold f
  | |- nofuel (?f _ _ _ _ _ _) => unfold f
  | |- nofuel (?f _ _ _ _ _) => unfold f
  | |- nofuel (?f _ _ _ _) => unfold f
  | |- nofuel (?f _ _ _) => unfold f
  | |- nofuel (?f _ _) => unfold f
  | |- nofuel (?f _) => unfold f
  end.
Ltac nfs := repeat (cbv beta iota zeta; nf1).
Ltac dn f := unfold f; nfs.

(** An execution that is stuck for another reason is not [live]. *)
Definition live {A} (o : outcome A) : Prop := forall p, o = Panic p -> p = PFuel.
Lemma live_ret A (x : A) : live (Ret x). Proof. discriminate. Qed.
Lemma bind_live A B (o : outcome A) (k : A -> outcome B) oo : live oo -> nofuel o -> bind o k = oo -> exists x, o = Ret x /\ k x = oo.
Proof.
  intros L N H. destruct o as [x|p]; cbn in H; [eauto|]. exfalso. apply N. f_equal. apply L. symmetry. exact H.
Qed.

Lemma n_get_units m d : nofuel (get_units m d). Proof. dn get_units. Qed.
#[global] Hint Resolve n_get_units : nofuel.
Lemma n_scan_pos n : forall l i, nofuel (scan_pos n l i).
Proof. induction n; intros; cbn [scan_pos]; nfs. Qed.
#[global] Hint Resolve n_scan_pos : nofuel.
Lemma n_cmp_common n : forall l r i j, nofuel (cmp_common n l r i j).
Proof. induction n; intros; cbn [cmp_common]; nfs. Qed.
#[global] Hint Resolve n_cmp_common : nofuel.
Lemma n_cmp_abs_lsu liu lfu llsu riu rfu rlsu : nofuel (cmp_abs_lsu liu lfu llsu riu rfu rlsu). Proof. dn cmp_abs_lsu. Qed.
#[global] Hint Resolve n_cmp_abs_lsu : nofuel.
Lemma n_cmp_abs m lhs rhs : nofuel (cmp_abs m lhs rhs). Proof. dn cmp_abs. Qed.
#[global] Hint Resolve n_cmp_abs : nofuel.
Lemma n_cmp m a b : nofuel (cmp m a b). Proof. dn cmp. Qed.
#[global] Hint Resolve n_cmp : nofuel.
Lemma n_eq m a b : nofuel (eq m a b). Proof. dn eq. Qed.
#[global] Hint Resolve n_eq : nofuel.
Lemma n_lt m a b : nofuel (lt m a b). Proof. dn lt. Qed.
#[global] Hint Resolve n_lt : nofuel.
Lemma n_gt m a b : nofuel (gt m a b). Proof. dn gt. Qed.
#[global] Hint Resolve n_gt : nofuel.
Lemma n_add_with_carry m a b carry : nofuel (add_with_carry m a b carry). Proof. dn add_with_carry. Qed.
#[global] Hint Resolve n_add_with_carry : nofuel.
Lemma n_round_arm m u md half : nofuel (round_arm m u md half). Proof. dn round_arm. Qed.
#[global] Hint Resolve n_round_arm : nofuel.
Lemma n_round_unit m round_pos u : nofuel (round_unit m round_pos u). Proof. dn round_unit. Qed.
#[global] Hint Resolve n_round_unit : nofuel.
Lemma n_carry_loop n : forall m l i carry, nofuel (carry_loop m n l i carry).
Proof. induction n; intros; cbn [carry_loop]; nfs. Qed.
#[global] Hint Resolve n_carry_loop : nofuel.
Lemma n_round_half_up m d intg_units frac_units trunc round_frac carry : nofuel (round_half_up m d intg_units frac_units trunc round_frac carry). Proof. dn round_half_up. Qed.
#[global] Hint Resolve n_round_half_up : nofuel.
Lemma n_round m self fr : nofuel (round m self fr). Proof. dn round. Qed.
#[global] Hint Resolve n_round : nofuel.
Lemma n_round_to m self res fr : nofuel (round_to m self res fr). Proof. dn round_to. Qed.
#[global] Hint Resolve n_round_to : nofuel.
Lemma n_lsu_to_i64 m d : nofuel (lsu_to_i64 m d). Proof. dn lsu_to_i64. Qed.
#[global] Hint Resolve n_lsu_to_i64 : nofuel.
Lemma n_as_i64 m self : nofuel (as_i64 m self). Proof. dn as_i64. Qed.
#[global] Hint Resolve n_as_i64 : nofuel.
Lemma n_lsu_to_u64 m d : nofuel (lsu_to_u64 m d). Proof. dn lsu_to_u64. Qed.
#[global] Hint Resolve n_lsu_to_u64 : nofuel.
Lemma n_as_u64 m self : nofuel (as_u64 m self). Proof. dn as_u64. Qed.
#[global] Hint Resolve n_as_u64 : nofuel.
Lemma n_hash m self : nofuel (hash m self). Proof. dn hash. Qed.
#[global] Hint Resolve n_hash : nofuel.
Lemma n_sub_with_borrow m a b borrow : nofuel (sub_with_borrow m a b borrow). Proof. dn sub_with_borrow. Qed.
#[global] Hint Resolve n_sub_with_borrow : nofuel.
Lemma n_add_loop n : forall m a b li ri r si carry, nofuel (add_loop m n a b li ri r si carry).
Proof. induction n; intros; cbn [add_loop]; nfs. Qed.
#[global] Hint Resolve n_add_loop : nofuel.
Lemma n_add_rest n : forall m a li r si carry, nofuel (add_rest m n a li r si carry).
Proof. induction n; intros; cbn [add_rest]; nfs. Qed.
#[global] Hint Resolve n_add_rest : nofuel.
Lemma n_top_non_zero n : forall l fu, nofuel (top_non_zero n l fu).
Proof. induction n; intros; cbn [top_non_zero]; nfs. Qed.
#[global] Hint Resolve n_top_non_zero : nofuel.
Lemma n_add_abs m lhs rhs res : nofuel (add_abs m lhs rhs res). Proof. dn add_abs. Qed.
#[global] Hint Resolve n_add_abs : nofuel.
Lemma n_sub_low n : forall m b ri r si borrow, nofuel (sub_low m n b ri r si borrow).
Proof. induction n; intros; cbn [sub_low]; nfs. Qed.
#[global] Hint Resolve n_sub_low : nofuel.
Lemma n_sub_loop n : forall m a b li ri r si borrow, nofuel (sub_loop m n a b li ri r si borrow).
Proof. induction n; intros; cbn [sub_loop]; nfs. Qed.
#[global] Hint Resolve n_sub_loop : nofuel.
Lemma n_sub_rest n : forall m a li r si borrow, nofuel (sub_rest m n a li r si borrow).
Proof. induction n; intros; cbn [sub_rest]; nfs. Qed.
#[global] Hint Resolve n_sub_rest : nofuel.
Lemma n_negate_units n : forall m l i borrow, nofuel (negate_units m n l i borrow).
Proof. induction n; intros; cbn [negate_units]; nfs. Qed.
#[global] Hint Resolve n_negate_units : nofuel.
Lemma n_sub_abs m lhs rhs res : nofuel (sub_abs m lhs rhs res). Proof. dn sub_abs. Qed.
#[global] Hint Resolve n_sub_abs : nofuel.
Lemma n_mul_row lvs : forall m lhs_idx rhs_idx shift rv r carry res_idx, nofuel (mul_row m lvs lhs_idx rhs_idx shift rv r carry res_idx).
Proof. induction lvs; intros; cbn [mul_row]; nfs. Qed.
#[global] Hint Resolve n_mul_row : nofuel.
Lemma n_mul_rows rvs : forall m lvs rhs_idx shift r, nofuel (mul_rows m rvs lvs rhs_idx shift r).
Proof. induction rvs; intros; cbn [mul_rows]; nfs. Qed.
#[global] Hint Resolve n_mul_rows : nofuel.
Lemma n_mul_abs m lhs rhs res : nofuel (mul_abs m lhs rhs res). Proof. dn mul_abs. Qed.
#[global] Hint Resolve n_mul_abs : nofuel.
Lemma n_lead_non_zero n : forall l, nofuel (lead_non_zero n l).
Proof. induction n; intros; cbn [lead_non_zero]; nfs. Qed.
#[global] Hint Resolve n_lead_non_zero : nofuel.
Lemma n_short_div n : forall m a d rem i r, nofuel (short_div m n a d rem i r).
Proof. induction n; intros; cbn [short_div]; nfs. Qed.
#[global] Hint Resolve n_short_div : nofuel.
Lemma n_norm_units l : forall m nf carry, nofuel (norm_units m nf l carry).
Proof. induction l; intros; cbn [norm_units]; nfs. Qed.
#[global] Hint Resolve n_norm_units : nofuel.
Lemma n_mul_sub b2 : forall m qhat buf1 ms_idx carry borrow, nofuel (mul_sub m b2 qhat buf1 ms_idx carry borrow).
Proof. induction b2; intros; cbn [mul_sub]; nfs. Qed.
#[global] Hint Resolve n_mul_sub : nofuel.
Lemma n_short_rem n : forall m buf d rem i, nofuel (short_rem m n buf d rem i).
Proof. induction n; intros; cbn [short_rem]; nfs. Qed.
#[global] Hint Resolve n_short_rem : nofuel.
Lemma n_copy_rest n : forall buf r res_non_zero, nofuel (copy_rest n buf r res_non_zero).
Proof. induction n; intros; cbn [copy_rest]; nfs. Qed.
#[global] Hint Resolve n_copy_rest : nofuel.
Lemma n_mul_sub_zip w : forall m qhat b2 carry borrow, nofuel (mul_sub_zip m qhat w b2 carry borrow).
Proof. induction w; intros; destruct b2; cbn [mul_sub_zip]; nfs. Qed.
#[global] Hint Resolve n_mul_sub_zip : nofuel.
Lemma n_denorm n : forall m buf1 nf rem r res_non_zero, nofuel (denorm m n buf1 nf rem r res_non_zero).
Proof. induction n; intros; cbn [denorm]; nfs. Qed.
#[global] Hint Resolve n_denorm : nofuel.
Lemma n_rem_finish m r res_non_zero rem_frac_units rem_frac : nofuel (rem_finish m r res_non_zero rem_frac_units rem_frac). Proof. dn rem_finish. Qed.
#[global] Hint Resolve n_rem_finish : nofuel.
Lemma n_finish_sign o c : nofuel (finish_sign o c). Proof. dn finish_sign. Qed.
#[global] Hint Resolve n_finish_sign : nofuel.
Lemma n_finish_sub o lneg : nofuel (finish_sub o lneg). Proof. dn finish_sub. Qed.
#[global] Hint Resolve n_finish_sub : nofuel.
Lemma n_add_to m lhs rhs res : nofuel (add_to m lhs rhs res). Proof. dn add_to. Qed.
#[global] Hint Resolve n_add_to : nofuel.
Lemma n_sub_to m lhs rhs res : nofuel (sub_to m lhs rhs res). Proof. dn sub_to. Qed.
#[global] Hint Resolve n_sub_to : nofuel.
Lemma n_mul_to m lhs rhs res : nofuel (mul_to m lhs rhs res). Proof. dn mul_to. Qed.
#[global] Hint Resolve n_mul_to : nofuel.
Lemma n_op_add m a b : nofuel (op_add m a b). Proof. dn op_add. Qed.
#[global] Hint Resolve n_op_add : nofuel.
Lemma n_op_sub m a b : nofuel (op_sub m a b). Proof. dn op_sub. Qed.
#[global] Hint Resolve n_op_sub : nofuel.
Lemma n_op_mul m a b : nofuel (op_mul m a b). Proof. dn op_mul. Qed.
#[global] Hint Resolve n_op_mul : nofuel.
Lemma n_scan_loop bs : forall m i d dotchar last cfirst neg, nofuel (scan_loop m bs i d dotchar last cfirst neg).
Proof. induction bs; intros; cbn [scan_loop]; nfs. Qed.
#[global] Hint Resolve n_scan_loop : nofuel.
Lemma n_strip_zeroes n : forall bs i, nofuel (strip_zeroes n bs i).
Proof. induction n; intros; cbn [strip_zeroes]; nfs. Qed.
#[global] Hint Resolve n_strip_zeroes : nofuel.
Lemma n_exp_digits bs : forall m exp, nofuel (exp_digits m bs exp).
Proof. induction bs; intros; cbn [exp_digits]; nfs. Qed.
#[global] Hint Resolve n_exp_digits : nofuel.
Lemma n_parse_exp m bs i : nofuel (parse_exp m bs i). Proof. dn parse_exp. Qed.
#[global] Hint Resolve n_parse_exp : nofuel.
Lemma n_layout m frac_digits exp d : nofuel (layout m frac_digits exp d). Proof. dn layout. Qed.
#[global] Hint Resolve n_layout : nofuel.
Lemma n_intg_unit m u buf elim : nofuel (intg_unit m u buf elim). Proof. dn intg_unit. Qed.
#[global] Hint Resolve n_intg_unit : nofuel.
Lemma n_append_intg n : forall m l up buf elim, nofuel (append_intg m n l up buf elim).
Proof. induction n; intros; cbn [append_intg]; nfs. Qed.
#[global] Hint Resolve n_append_intg : nofuel.
Lemma n_frac_group m dv u fdg buf : nofuel (frac_group m dv u fdg buf). Proof. dn frac_group. Qed.
#[global] Hint Resolve n_frac_group : nofuel.
Lemma n_append_frac n : forall m l buf fdg, nofuel (append_frac m n l buf fdg).
Proof. induction n; intros; cbn [append_frac]; nfs. Qed.
#[global] Hint Resolve n_append_frac : nofuel.
Lemma n_append_str_buf m self buf frac : nofuel (append_str_buf m self buf frac). Proof. dn append_str_buf. Qed.
#[global] Hint Resolve n_append_str_buf : nofuel.
Lemma n_to_string m self frac : nofuel (to_string m self frac). Proof. dn to_string. Qed.
#[global] Hint Resolve n_to_string : nofuel.

(** ** Machine integers stay in range, in both profiles *)
Lemma chk_range m lo hi z x : lo <= hi -> chk m lo hi z = Ret x -> lo <= x <= hi.
Proof.
  unfold chk. intros H E. destruct (_ && _) eqn:B.
  - injection E as <-. apply andb_prop in B. destruct B as [B1 B2]. apply Z.leb_le in B1, B2. auto.
  - destruct m; [discriminate|]. injection E as <-. pose proof (Z.mod_pos_bound (z - lo) (hi - lo + 1) ltac:(lia)) as P.
    set (r := (z - lo) mod (hi - lo + 1)) in *. clearbody r. lia.
Qed.
Lemma i8_range m z x : i8 m z = Ret x -> -128 <= x <= 127.
Proof. apply chk_range. lia. Qed.
Lemma i8_exact m z : -128 <= z <= 127 -> i8 m z = Ret z.
Proof. intros H. unfold i8, chk. replace ((-128 <=? z) && (z <=? 127)) with true by lia. reflexivity. Qed.

(** ** Integers *)
Lemma from_u64_fuel m : forall fuel src l i, 0 <= src < 10 ^ (9 * Z.of_nat fuel) -> nofuel (from_u64_loop m (S fuel) src l i).
Proof.
  induction fuel as [|fuel IH]; intros src l i H; cbn [from_u64_loop].
  - change (10 ^ (9 * Z.of_nat 0)) with 1 in H. replace (src =? 0) with true by lia. apply nofuel_ret.
  - destruct (src =? 0); [apply nofuel_ret|]. cbv zeta. apply nofuel_bind; [apply nofuel_chk|intros x _]. apply nofuel_bind; [apply nofuel_chk|intros y _].
    apply nofuel_bind; [apply nofuel_set|intros l' _]. apply IH. change UNIT with 1000000000. split; [apply Z.div_pos; lia|].
    apply Z.div_lt_upper_bound; [lia|]. replace (9 * Z.of_nat (S fuel)) with (9 + 9 * Z.of_nat fuel) in H by lia. assert (E : 10 ^ (9 + 9 * Z.of_nat fuel) = 1000000000 * 10 ^ (9 * Z.of_nat fuel)) by (clear; rewrite Z.pow_add_r; [reflexivity|lia|lia]).
    rewrite E in H. exact (proj2 H).
Qed.
Lemma n_from_u64 m src : 0 <= src < 2 ^ 64 -> nofuel (from_u64 m src).
Proof.
  intros H. unfold from_u64. apply nofuel_bind; [|intros [l i] _; apply nofuel_ret]. apply from_u64_fuel. split; [apply H|].
  apply Z.lt_trans with (1 := proj2 H). reflexivity.
Qed.

(** ** Parsing *)
Lemma n_zero_fill m : forall fuel l up cut, cut <= 127 -> cut <= 9 * Z.of_nat fuel -> nofuel (zero_fill m (S fuel) l up cut).
Proof.
  induction fuel as [|fuel IH]; intros l up cut H1 H2; cbn [zero_fill].
  - replace (cut >? 0) with false by lia. apply nofuel_ret.
  - destruct (Z.gtb_spec cut 0) as [C|C]; [|apply nofuel_ret]. apply nofuel_bind; [apply nofuel_set|intros l' _]. change DIGITS_PER_UNIT with 9.
    rewrite i8_exact by lia. cbn [bind]. apply IH; lia.
Qed.
Lemma n_heading_fill m : forall fuel l up hz, hz <= 127 -> hz <= 9 * Z.of_nat fuel -> nofuel (heading_fill m (S fuel) l up hz).
Proof.
  induction fuel as [|fuel IH]; intros l up hz H1 H2; cbn [heading_fill]; change DIGITS_PER_UNIT with 9.
  - replace (hz >=? 9) with false by lia. apply nofuel_ret.
  - destruct (Z.geb_spec hz 9) as [C|C]; [|apply nofuel_ret]. apply nofuel_bind; [apply nofuel_set|intros l' _].
    rewrite i8_exact by lia. cbn [bind]. apply IH; lia.
Qed.
Lemma get_bounds l i x : get l i = Ret x -> 0 <= i < zlen l.
Proof. unfold get. destruct ((0 <=? i) && (i <? zlen l)) eqn:B; [intros _; lia|discriminate]. Qed.
Lemma n_intg_step m bs last f i out cut up l : (0 <= i < zlen bs -> forall o c u l', nofuel (intg_loop m f bs last (i + 1) o c u l')) -> nofuel (intg_loop m (S f) bs last i out cut up l).
Proof. intros N. cbn [intg_loop]. apply nofuel_bind; [apply nofuel_get|intros c Hc; apply get_bounds in Hc]. specialize (N Hc). nfs. Qed.
Lemma n_intg_loop m bs last : forall f i out cut up l, i < 0 \/ zlen bs <= i + Z.of_nat f -> nofuel (intg_loop m (S f) bs last i out cut up l).
Proof. induction f as [|f IH]; intros i out cut up l H; apply n_intg_step; intros B; [lia|]. intros. apply IH. lia. Qed.
Lemma n_frac_step m bs last f i out cut up l : (0 <= i < zlen bs -> forall o c u l', nofuel (frac_loop m f bs last (i + 1) o c u l')) -> nofuel (frac_loop m (S f) bs last i out cut up l).
Proof. intros N. cbn [frac_loop]. apply nofuel_bind; [apply nofuel_get|intros c Hc; apply get_bounds in Hc]. specialize (N Hc). nfs. Qed.
Lemma n_frac_loop m bs last : forall f i out cut up l, i < 0 \/ zlen bs <= i + Z.of_nat f -> nofuel (frac_loop m (S f) bs last i out cut up l).
Proof. induction f as [|f IH]; intros i out cut up l H; apply n_frac_step; intros B; [lia|]. intros. apply IH. lia. Qed.
Lemma start_ok (bs : list Z) i : i < 0 \/ zlen bs <= i + Z.of_nat (length bs).
Proof. unfold zlen. lia. Qed.

Lemma n_convert m self bs s fr dg hz : hz <= 127 -> nofuel (convert m self bs s fr dg hz).
Proof.
  intros H. unfold convert. cbv zeta.
  apply nofuel_bind; [apply nofuel_chk|intros ig _]. apply nofuel_bind; [apply n_get_units|intros iu _]. apply nofuel_bind; [apply n_get_units|intros fu _].
  apply nofuel_bind; [apply nofuel_chk|intros up _]. apply nofuel_bind.
  - destruct (iu >? 0); [|apply nofuel_ret]. apply nofuel_bind; [apply nofuel_chk|intros cut _]. apply nofuel_bind; [apply n_intg_loop, start_ok|intros ((((i & out) & cut') & up') & l) _].
    apply nofuel_bind; [apply nofuel_get|intros re _]. apply nofuel_bind; [apply nofuel_get|intros p _]. apply nofuel_bind; [apply nofuel_chk|intros v _].
    apply nofuel_bind; [apply nofuel_set|intros l' _]. apply nofuel_bind; [apply nofuel_chk|intros c Hc]. apply i8_range in Hc.
    apply nofuel_bind; [|intros [? ?] _; apply nofuel_ret]. apply n_zero_fill; lia.
  - intros ((l & up') & i) _. apply nofuel_bind; [|intros l' _; apply nofuel_bind; [apply nofuel_chk|intros; apply nofuel_ret]].
    destruct (fu >? 0); [|apply nofuel_ret]. apply nofuel_bind; [apply n_heading_fill; lia|intros ((l' & up2) & hz') _].
    apply nofuel_bind; [apply nofuel_chk|intros cut _]. apply nofuel_bind; [apply n_frac_loop, start_ok|intros ((out & up3) & l3) _]. apply nofuel_set.
Qed.
Lemma layout_hz m f e d fr dg hz : layout m f e d = Ret (fr, dg, hz) -> hz <= 127.
Proof.
  unfold layout. destruct (i8 m (as_i8 f - as_i8 e)) as [x|]; cbn [bind]; [|discriminate]. destruct (x ?= 0).
  - intros H. assert (hz = 0) by congruence. lia.
  - destruct (i8 m (d - x)) as [y|]; cbn [bind]; [|discriminate]. intros H. assert (hz = 0) by congruence. lia.
  - destruct (d >? x); [intros H; assert (hz = 0) by congruence; lia|]. destruct (i8 m (x - d)) as [y|] eqn:E; cbn [bind]; [|discriminate].
    intros H. apply i8_range in E. assert (hz = y) by congruence. lia.
Qed.
Lemma n_from_bytes_str m self bs reset : nofuel (from_bytes_str m self bs reset).
Proof.
  unfold from_bytes_str. cbv zeta. set (sf := if reset then set_zero self else self). clearbody sf. destruct bs as [|c bs]; [apply nofuel_ret|]. set (b := c :: bs). clearbody b.
  apply nofuel_bind; [apply n_scan_loop|intros s _]. destruct (s_last s =? -1); [apply nofuel_ret|]. apply nofuel_bind; [destruct (s_more s); auto with nofuel|intros [e|] _; [|apply nofuel_ret]].
  apply nofuel_bind; [apply n_layout|intros ((fr & dg) & hz) HL]. apply layout_hz in HL. destruct (_ >? _); [apply nofuel_ret|].
  apply nofuel_bind; [apply n_convert, HL|intros d _; apply nofuel_ret].
Qed.
Lemma n_from_str m bs : nofuel (from_str m bs).
Proof. unfold from_str, from_ascii_str. apply nofuel_bind; [apply n_from_bytes_str|intros [[|] ?] _; apply nofuel_ret]. Qed.
Lemma n_from_i64 m src : nofuel (from_i64 m src).
Proof.
  assert (K : forall z, nofuel (from_u64 m (as_usize z))).
  { intros z. apply n_from_u64. unfold as_usize. change 18446744073709551616 with (2 ^ 64). apply Z.mod_pos_bound. reflexivity. }
  unfold from_i64. destruct (_ =? _); [apply nofuel_ret|]. destruct (_ <? _); [|apply K]. apply nofuel_bind; [apply nofuel_chk|intros n _]. apply nofuel_bind; [apply K|intros; apply nofuel_ret].
Qed.
