(** * Laws of multiplication; products from strings to strings. *)
From Coq Require Import ZArith List Bool Lia QArith Qabs.
From Coq Require Import ZifyBool ZifyNat.
From Verif Require Import Rust Model_Base Model_Cmp Model_Arith Model_Serde Spec Lib Cmp Sign AddTo AddSubQ Basics MulAbs MulQ Digits Print Scan Parse ParseMain ParseThms.
Import ListNotations.
Open Scope Z_scope.
Ltac Zify.zify_post_hook ::= Z.div_mod_to_equations.

Lemma mul_fits_returns m a b res : wf a -> wf b -> clean a -> clean b -> tight a -> tight b -> product_fits a b ->
  (m = Release \/ 0 < int_digits a \/ 9 < frac_digits a) -> exists o, mul_to m a b res = Ret o.
Proof.
  intros Ha Hb Ca Cb Ta Tb F M. apply mul_returns; auto.
  destruct (Qeq_dec (value a) 0) as [Za|Za]; [auto|]. right. right.
  destruct (fits_lost a b Ha Hb F) as (_ & E & L & I & FF & _). split; [lia|]. split; [lia|].
  pose proof (wf_counts a Ha) as WA. pose proof (wf_counts b Hb) as WB.
  assert (Pa : 1 <= iu a + fu a).
  { apply nonzero_units; auto. destruct (is_zero a) eqn:E0; [|reflexivity]. exfalso. apply Za. apply is_zero_iff; assumption. }
  destruct (Z.eq_dec (product_lost_units a b) 0) as [E0|E0]; [right; left; lia|].
  right. destruct (Z.eq_dec (iu a + fu a) 1) as [E1|E1]; [|left; lia].
  destruct M as [->|[M|M]].
  - right. split; [reflexivity|lia].
  - exfalso. unfold product_lost_units in *. rewrite E in *. clear - E0 L E1 M WA WB.
    assert (iu a = 1 /\ fu a = 0) as [I1 F1] by (unfold iu, fu, units_for in *; lia).
    unfold fu, units_for in *. lia.
  - exfalso. unfold fu, iu, units_for in *. lia.
Qed.

(** ** The laws *)
Ltac rg := split; [|split; [|split]].
Lemma regular_zero : regular zero.
Proof.
  pose proof (set_zero_facts zero) as (A & B & C & D & _). rg; assumption.
Qed.

Lemma mul_regular m a b res d : regular a -> regular b -> mul_to m a b res = Ret (Ok tt, d) -> regular d /\ ~ negzero d.
Proof.
  intros (A1 & A2 & A3 & A4) (B1 & B2 & B3 & B4) H.
  destruct (mul_truncates m a b res _ d A1 B1 A2 B2 A3 B3 H eq_refl) as (W & C & T & NZ & NH & _).
  split; [rg; auto|exact NZ].
Qed.
Lemma add_regular m a b res d : regular a -> regular b -> add_to m a b res = Ret (Ok tt, d) -> regular d.
Proof.
  intros (A1 & A2 & A3 & A4) (B1 & B2 & B3 & B4) H.
  destruct (add_exact m a b res _ d A1 B1 H) as (_ & W & _). destruct (add_keeps m a b res _ d A1 B1 H) as (C & T & N).
  rg; auto.
Qed.
Lemma sub_regular m a b res d : regular a -> regular b -> sub_to m a b res = Ret (Ok tt, d) -> regular d.
Proof.
  intros (A1 & A2 & A3 & A4) (B1 & B2 & B3 & B4) H.
  destruct (sub_exact m a b res _ d A1 B1 H) as (_ & W & _). destruct (sub_keeps m a b res _ d A1 B1 H) as (C & T & N).
  rg; auto.
Qed.

Lemma mul_value m a b res rs d : regular a -> regular b -> product_fits a b -> mul_to m a b res = Ret (rs, d) ->
  rs = Ok tt /\ regular d /\ ~ negzero d /\ (value d == value a * value b)%Q.
Proof.
  intros (A1 & A2 & A3 & A4) (B1 & B2 & B3 & B4) F H.
  destruct (mul_exact m a b res rs d A1 B1 A2 B2 A3 B3 A4 B4 F H) as (R & W & C & T & N & Z & V & _).
  split; [exact R|]. split; [rg; assumption|]. split; assumption.
Qed.

Lemma fits_sym a b : product_fits a b -> product_fits b a.
Proof. unfold product_fits. rewrite !(Z.add_comm (int_digits b)), !(Z.add_comm (frac_digits b)). auto. Qed.

Lemma mul_comm m a b res x y : regular a -> regular b -> product_fits a b ->
  mul_to m a b res = Ret (Ok tt, x) -> mul_to m b a res = Ret (Ok tt, y) -> (value x == value y)%Q /\ eq m x y = Ret true.
Proof.
  intros A B F H1 H2.
  destruct (mul_value m a b res _ x A B F H1) as (_ & X & NX & VX).
  destruct (mul_value m b a res _ y B A (fits_sym a b F) H2) as (_ & Y & NY & VY).
  assert (V : (value x == value y)%Q) by (rewrite VX, VY; ring).
  split; [exact V|]. apply eq_of_value; auto; [apply X|apply Y].
Qed.

Lemma mul_assoc m a b c res ab abc bc abc' : regular a -> regular b -> regular c ->
  mul_to m a b res = Ret (Ok tt, ab) -> mul_to m ab c res = Ret (Ok tt, abc) ->
  mul_to m b c res = Ret (Ok tt, bc) -> mul_to m a bc res = Ret (Ok tt, abc') ->
  product_fits a b -> product_fits ab c -> product_fits b c -> product_fits a bc ->
  (value abc == value abc')%Q /\ eq m abc abc' = Ret true.
Proof.
  intros A B C H1 H2 H3 H4 F1 F2 F3 F4.
  destruct (mul_value m a b res _ ab A B F1 H1) as (_ & X1 & _ & V1).
  destruct (mul_value m ab c res _ abc X1 C F2 H2) as (_ & X2 & N2 & V2).
  destruct (mul_value m b c res _ bc B C F3 H3) as (_ & X3 & _ & V3).
  destruct (mul_value m a bc res _ abc' A X3 F4 H4) as (_ & X4 & N4 & V4).
  assert (V : (value abc == value abc')%Q) by (rewrite V2, V1, V4, V3; ring).
  split; [exact V|]. apply eq_of_value; auto; [apply X2|apply X4].
Qed.

Lemma mul_distr m a b c res s x y z w : regular a -> regular b -> regular c ->
  ~ negzero b -> ~ negzero c ->
  add_to m b c res = Ret (Ok tt, s) -> mul_to m a s res = Ret (Ok tt, x) ->
  mul_to m a b res = Ret (Ok tt, y) -> mul_to m a c res = Ret (Ok tt, z) -> add_to m y z res = Ret (Ok tt, w) ->
  product_fits a s -> product_fits a b -> product_fits a c ->
  (value x == value w)%Q /\ eq m x w = Ret true.
Proof.
  intros A B C NB NC H1 H2 H3 H4 H5 F1 F2 F3.
  pose proof (add_regular m b c res s B C H1) as S.
  destruct (add_exact m b c res _ s (proj1 B) (proj1 C) H1) as (_ & _ & VS & _).
  destruct (mul_value m a s res _ x A S F1 H2) as (_ & X & NX & VX).
  destruct (mul_value m a b res _ y A B F2 H3) as (_ & Y & NY & VY).
  destruct (mul_value m a c res _ z A C F3 H4) as (_ & Z & NZ & VZ).
  pose proof (add_regular m y z res w Y Z H5) as W.
  destruct (add_exact m y z res _ w (proj1 Y) (proj1 Z) H5) as (_ & _ & VW & _).
  assert (V : (value x == value w)%Q) by (rewrite VX, VS, VW, VY, VZ; ring).
  split; [exact V|]. apply eq_of_value; auto; [apply X|apply W|].
  apply (add_no_negzero m y z res (Ok tt) w); auto; solve [apply Y|apply Z].
Qed.

Lemma mul_one m a u res x : regular a -> regular u -> ~ negzero a -> (value u == 1)%Q -> product_fits a u ->
  mul_to m a u res = Ret (Ok tt, x) \/ mul_to m u a res = Ret (Ok tt, x) -> (value x == value a)%Q /\ eq m x a = Ret true.
Proof.
  intros A U NA V1 F [H|H].
  - destruct (mul_value m a u res _ x A U F H) as (_ & X & NX & VX).
    assert (V : (value x == value a)%Q) by (rewrite VX, V1; ring). split; [exact V|]. apply eq_of_value; auto; [apply X|apply A].
  - destruct (mul_value m u a res _ x U A (fits_sym _ _ F) H) as (_ & X & NX & VX).
    assert (V : (value x == value a)%Q) by (rewrite VX, V1; ring). split; [exact V|]. apply eq_of_value; auto; [apply X|apply A].
Qed.

Lemma mul_zero m a z res : wf a -> wf z -> clean a -> clean z -> (value z == 0)%Q ->
  mul_to m a z res = Ret (Ok tt, zero) /\ mul_to m z a res = Ret (Ok tt, zero).
Proof.
  intros A Z CA CZ V. unfold mul_to. rewrite (proj2 (is_zero_iff z Z CZ) V), orb_true_r. cbn [orb]. split; reflexivity.
Qed.

Lemma flip_same d : wf d -> same_digits d (flip d) /\ neg (flip d) = negb (neg d) /\ -128 <= fd_intg (flip d) < 128.
Proof.
  intros H. destruct (wf_intg d H) as [I1 I2]. unfold same_digits, flip, neg, int_digits in *. cbn [fd_intg fd_frac fd_lsu].
  destruct (fd_intg d <? 0) eqn:E; repeat split; try reflexivity; try lia.
  all: unfold frac_digits; cbn; lia.
Qed.
Lemma flip_regular d : regular d -> regular (flip d).
Proof.
  intros (W & C & T & N). destruct (flip_same d W) as (S & _ & R).
  rg; [eapply same_wf|eapply same_clean|eapply same_tight|eapply same_nohidden]; eassumption.
Qed.
Lemma flip_value d : wf d -> (value (flip d) == - value d)%Q.
Proof.
  intros W. destruct (flip_same d W) as (S & N & R).
  rewrite (value_num d W), (value_num (flip d)) by (eapply same_wf; eassumption).
  unfold num. rewrite N, (same_amag _ _ S). generalize (Z.to_pos (base ^ 9)) (amag d); intros P x. destruct (neg d); cbn [negb]; unfold Qeq; cbn; lia.
Qed.
Lemma flip_fits a b : wf b -> product_fits a b -> product_fits a (flip b).
Proof.
  intros W. destruct (flip_same b W) as (S & _ & _). unfold product_fits.
  destruct S as (E1 & E2 & _). unfold frac_digits in *. rewrite E1, E2. auto.
Qed.

Lemma mul_flip m a b res x y : regular a -> regular b -> product_fits a b ->
  mul_to m a b res = Ret (Ok tt, x) -> mul_to m a (flip b) res = Ret (Ok tt, y) ->
  (value y == - value x)%Q /\ (~ (value x == 0)%Q -> eq m y (flip x) = Ret true).
Proof.
  intros A B F H1 H2.
  destruct (mul_value m a b res _ x A B F H1) as (_ & X & NX & VX).
  destruct (mul_value m a (flip b) res _ y A (flip_regular b B) (flip_fits a b (proj1 B) F) H2) as (_ & Y & NY & VY).
  assert (V : (value y == - value x)%Q) by (rewrite VX, VY, (flip_value b (proj1 B)); ring).
  split; [exact V|]. intros NZ. apply eq_of_value; auto.
  - apply Y.
  - apply flip_regular, X.
  - intros [_ Z]. apply NZ. rewrite (flip_value x (proj1 X)) in Z. rewrite <- (Qopp_involutive (value x)), Z. reflexivity.
  - rewrite (flip_value x (proj1 X)). exact V.
Qed.

(** ** From strings to strings *)
Lemma parse_regular m n : numeral_ok n -> n_exp n = None -> zlength (n_int n) + zlength (n_frac n) <= 65 ->
  exists d, from_str m (numeral_bytes n) = Ret (Ok d) /\ regular d /\ (value d == numeral_value n)%Q /\
    int_digits d = zlength (n_int n) /\ frac_digits d = zlength (n_frac n).
Proof.
  intros OK EX L. destruct (within_plain n _ _ OK EX (Z.le_refl _) (Z.le_refl _) L) as (WL & NF & ND).
  destruct (from_str_accepts m n OK WL) as (d & E & [PW PV PN PF PI PT PH PR] & CL).
  exists d. split; [exact E|]. split; [rg; assumption|]. split; [exact PV|]. lia.
Qed.

Lemma end_to_end_mul m s t : numeral_ok s -> numeral_ok t -> n_exp s = None -> n_exp t = None ->
  zlength (n_int s) + zlength (n_frac s) <= 65 -> zlength (n_int t) + zlength (n_frac t) <= 65 ->
  zlength (n_int s) + zlength (n_int t) <= 45 -> zlength (n_frac s) + zlength (n_frac t) <= 36 ->
  m = Release \/ n_int s <> [] ->
  exists a b r n, from_str m (numeral_bytes s) = Ret (Ok a) /\ from_str m (numeral_bytes t) = Ret (Ok b) /\
    mul_to m a b zero = Ret (Ok tt, r) /\ to_string m r (-1) = Ret (numeral_bytes n) /\ canonical n /\
    (numeral_value n == numeral_value s * numeral_value t)%Q /\
    (~ (numeral_value s == 0)%Q -> ~ (numeral_value t == 0)%Q -> zlength (n_frac n) = zlength (n_frac s) + zlength (n_frac t)).
Proof.
  intros OS OT XS XT LS LT LI LF M.
  destruct (parse_regular m s OS XS LS) as (a & EA & RA & VA & IA & FA).
  destruct (parse_regular m t OT XT LT) as (b & EB & RB & VB & IB & FB).
  assert (F : product_fits a b).
  { unfold product_fits. rewrite IA, IB, FA, FB. clear - LI LF. unfold units_for. lia. }
  destruct RA as (A1 & A2 & A3 & A4) eqn:RA'; destruct RB as (B1 & B2 & B3 & B4) eqn:RB'.
  destruct (mul_fits_returns m a b zero A1 B1 A2 B2 A3 B3 F) as [[rs r] ER].
  { destruct M as [M|M]; [auto|]. right. left. rewrite IA. destruct (n_int s); [congruence|]. rewrite zlength_cons. pose proof (zlength_nonneg _ l). lia. }
  destruct (mul_exact m a b zero rs r A1 B1 A2 B2 A3 B3 A4 B4 F ER) as (-> & WR & _ & _ & NR & _ & VR & FR).
  destruct (print_exact m r WR NR) as (n & EN & C & FN & VN).
  exists a, b, r, n. split; [exact EA|]. split; [exact EB|]. split; [exact ER|]. split; [exact EN|]. split; [exact C|].
  split; [rewrite VN, VR, VA, VB; reflexivity|]. intros ZS ZT. rewrite FN, FR, FA, FB; [reflexivity| |]; [rewrite VA|rewrite VB]; assumption.
Qed.
