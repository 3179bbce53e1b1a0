(** * Changing the signs of operands. *)
From Coq Require Import ZArith List Bool Lia QArith Qabs.
From Coq Require Import ZifyBool ZifyNat.
From Verif Require Import Rust Tables Model_Base Model_Cmp Model_Arith Spec Spec_Flip Lib Cmp AddSub Sign AddTo AddSubQ Basics QLib Round RoundTo Mul MulAbs MulQ MulLaws DivBasics DivQ Rem4 Rem5 Witness Agree Robust2 Robust3 Sound.
Import ListNotations.
Open Scope Z_scope.

(** The magnitude operations do not look at the signs. *)
Section Same.
Variables (a a' b b' : fd).
Hypotheses (SA : same_digits a a') (SB : same_digits b b').
Lemma same_fields4 : intg a' = intg a /\ frac a' = frac a /\ fd_lsu a' = fd_lsu a /\ intg b' = intg b /\ frac b' = frac b /\ fd_lsu b' = fd_lsu b /\ fd_frac a' = fd_frac a /\ fd_frac b' = fd_frac b.
Proof. destruct SA as (A1 & A2 & A3), SB as (B1 & B2 & B3). rewrite !intg_ok. unfold frac. auto 10. Qed.
Ltac same := destruct same_fields4 as (A1 & A2 & A3 & B1 & B2 & B3 & A4 & B4).
Lemma add_abs_same m res : add_abs m a' b' res = add_abs m a b res.
Proof. same. unfold add_abs, intg_units, frac_units. rewrite ?A1, ?A2, ?A3, ?A4, ?B1, ?B2, ?B3, ?B4. reflexivity. Qed.
Lemma sub_abs_same m res : sub_abs m a' b' res = sub_abs m a b res.
Proof. same. unfold sub_abs, intg_units, frac_units. rewrite ?A1, ?A2, ?A3, ?A4, ?B1, ?B2, ?B3, ?B4. reflexivity. Qed.
Lemma mul_abs_same m res : mul_abs m a' b' res = mul_abs m a b res.
Proof. same. unfold mul_abs, intg_units, frac_units. rewrite ?A1, ?A2, ?A3, ?A4, ?B1, ?B2, ?B3, ?B4. reflexivity. Qed.
Lemma div_abs_same m res i : div_abs m a' b' res i = div_abs m a b res i.
Proof. same. unfold div_abs. rewrite ?A1, ?A2, ?A3, ?A4, ?B1, ?B2, ?B3, ?B4. reflexivity. Qed.
Lemma rem_abs_same m res : rem_abs m a' b' res = rem_abs m a b res.
Proof. same. unfold rem_abs. rewrite ?A1, ?A2, ?A3, ?A4, ?B1, ?B2, ?B3, ?B4. reflexivity. Qed.
Lemma is_zero_same : is_zero a' = is_zero a /\ is_zero b' = is_zero b.
Proof. same. unfold is_zero. rewrite A3, B3. auto. Qed.
End Same.
Lemma same_refl d : same_digits d d.
Proof. repeat split. Qed.
Lemma flip_sign d : wf d -> same_digits d (flip d) /\ is_neg (flip d) = negb (is_neg d).
Proof.
  intros W. destruct (flip_same d W) as (S & N & R). split; [exact S|]. rewrite !is_neg_ok by (try exact R; apply wf_intg, W). exact N.
Qed.

(** The result with its sign set. *)
Lemma check_zero_value d : -128 <= fd_intg d < 128 -> neg d = false -> (value (set_neg_and_check_zero d) == - value d)%Q.
Proof.
  intros R N. pose proof (check_zero_same d R) as S. pose proof (same_magnitude _ _ S) as M. pose proof (same_fu _ _ S) as F.
  unfold value at 1 2. rewrite N, M, F. unfold set_neg_and_check_zero. destruct (is_zero (set_neg d)) eqn:Z.
  - assert (X : magnitude d = 0). { rewrite <- (same_magnitude d (set_neg d) (set_neg_same d R)). apply is_zero_magnitude, Z. }
    rewrite X. destruct (neg (set_pos (set_neg d))); reflexivity.
  - rewrite set_neg_neg by exact R. unfold Qeq. cbn. ring.
Qed.
(** What the magnitude operation leaves: positive, or zero beside an error. *)
Definition plain (o : outcome (result unit * fd)) : Prop :=
  match o with
  | Ret (Ok _, d) => -128 <= fd_intg d < 128 /\ neg d = false
  | Ret (Err _, d) => True
  | Panic _ => True
  end.
Lemma opp_intro u1 u2 d1 d2 : same_digits d1 d2 -> (value d2 == - value d1)%Q -> opposite_outcomes (Ret (Ok u1, d1)) (Ret (Ok u2, d2)).
Proof. intros (A & B & C) V. cbn. auto. Qed.
Lemma eqo_intro u1 u2 d1 d2 : same_digits d1 d2 -> (value d2 == value d1)%Q -> equal_outcomes (Ret (Ok u1, d1)) (Ret (Ok u2, d2)).
Proof. intros (A & B & C) V. cbn. auto. Qed.
Lemma same_sym d d' : same_digits d d' -> same_digits d' d.
Proof. intros (A & B & C). repeat split; auto. Qed.
Lemma opp_zero : opposite_outcomes (Ret (Ok tt, zero)) (Ret (Ok tt, zero)).
Proof. apply opp_intro; [apply same_refl|reflexivity]. Qed.
Lemma finish_odd o s : plain o -> opposite_outcomes (bind o (fun o => finish_sign o s)) (bind o (fun o => finish_sign o (negb s))).
Proof.
  destruct o as [[[u|e] d]|p]; [| |reflexivity]; intros P; [|reflexivity].
  destruct P as [R N]. cbn [bind finish_sign]. pose proof (check_zero_same d R) as S. pose proof (check_zero_value d R N) as V.
  destruct s; cbn [negb]; apply opp_intro; [apply same_sym, S|rewrite V; ring|exact S|exact V].
Qed.
Lemma mul_plain m a b res : wf a -> wf b -> plain (mul_abs m a b res).
Proof.
  intros Ha Hb. destruct (mul_abs m a b res) as [[rs d]|p] eqn:E; [|exact I].
  destruct (mul_abs_sums m a b res _ Ha Hb E) as (S1 & S2). rewrite mul_abs_eq in E by assumption. destruct (Z.gtb_spec (mru a b) 9) as [L|L]; [injection E as <- <-; exact I|].
  pose proof (mul_shape a b Ha Hb L) as (M1 & _). apply bind_inv in E. destruct E as ([rs1 r] & ER & E). destruct rs1; injection E as <- <-; [|exact I].
  cbn. split; [lia|]. unfold neg. cbn [fd_intg]. lia.
Qed.
Lemma div_plain m a b res incr : wf a -> wf b -> ~ (value a == 0)%Q -> ~ (value b == 0)%Q -> plain (div_abs m a b res incr).
Proof.
  intros Ha Hb Na Nb. rewrite value_zero_iff in Na, Nb by assumption. destruct (div_abs m a b res incr) as [[rs d]|p] eqn:E; [|exact I].
  destruct (div_abs_any m a b res incr rs d Ha Hb Na Nb E) as (lnz & rnz & _ & [(_ & -> & ->)|(_ & -> & L & N & _)]); cbn; [exact I|].
  split; [apply (lr_intg m d L)|exact N].
Qed.
Lemma rem_plain m a b res : wf a -> wf b -> ~ (value b == 0)%Q -> plain (rem_abs m a b res).
Proof.
  intros Ha Hb Nb. rewrite value_zero_iff in Nb by assumption. destruct (rem_abs m a b res) as [[rs d]|p] eqn:E; [|exact I].
  assert (ER : rem_abs Release a b res = Ret (rs, d)) by (destruct m; [apply (simr_ret _ _ _ (s_rem_abs a b res)), E|exact E]).
  destruct (rem_abs_any a b res Ha Hb Nb) as [(d' & E' & R)|(p & E' & _)]; rewrite E' in ER; [|discriminate ER]. injection ER as <- <-. cbn.
  split; [apply wf_intg, R|apply R].
Qed.

Lemma xorb_negb x y : xorb (negb x) y = negb (xorb x y). Proof. destruct x, y; reflexivity. Qed.
Lemma xorb_negb_r x y : xorb x (negb y) = negb (xorb x y). Proof. destruct x, y; reflexivity. Qed.

(** Division. *)
Lemma div_flip_l m a b res incr : wf a -> wf b -> opposite_outcomes (div_to m a b res incr) (div_to m (flip a) b res incr).
Proof.
  intros Ha Hb. destruct (flip_sign a Ha) as [S N]. pose proof (flip_value a Ha) as V. assert (WF : wf (flip a)) by (destruct (flip_same a Ha) as (X & _ & Y); eapply same_wf; eassumption).
  destruct (Qeq_dec (value b) 0) as [Vb|Vb]; [rewrite !div_dbz by assumption; first [reflexivity|apply opp_zero]|].
  destruct (Qeq_dec (value a) 0) as [Va|Va].
  { rewrite !div_to_zero by (try assumption; rewrite V, Va; reflexivity). apply opp_zero. }
  unfold div_to. rewrite N, xorb_negb. rewrite (div_abs_same a (flip a) b b S (same_refl b)). apply finish_odd, div_plain; assumption.
Qed.
Lemma div_flip_r m a b res incr : wf a -> wf b -> opposite_outcomes (div_to m a b res incr) (div_to m a (flip b) res incr).
Proof.
  intros Ha Hb. destruct (flip_sign b Hb) as [S N]. pose proof (flip_value b Hb) as V. assert (WF : wf (flip b)) by (destruct (flip_same b Hb) as (X & _ & Y); eapply same_wf; eassumption).
  destruct (Qeq_dec (value b) 0) as [Vb|Vb]; [rewrite !div_dbz by (try assumption; rewrite V, Vb; reflexivity); first [reflexivity|apply opp_zero]|].
  assert (Vb' : ~ (value (flip b) == 0)%Q) by (rewrite V; intros X; apply Vb; rewrite <- (Qopp_involutive (value b)), X; reflexivity).
  destruct (Qeq_dec (value a) 0) as [Va|Va]; [rewrite !div_to_zero by assumption; first [reflexivity|apply opp_zero]|].
  unfold div_to. rewrite N, xorb_negb_r. rewrite (div_abs_same a a b (flip b) (same_refl a) S). apply finish_odd, div_plain; assumption.
Qed.
(** The remainder. *)
Lemma rem_flip_l m a b res : wf a -> wf b -> opposite_outcomes (rem_to m a b res) (rem_to m (flip a) b res).
Proof.
  intros Ha Hb. destruct (flip_sign a Ha) as [S N]. assert (WF : wf (flip a)) by (destruct (flip_same a Ha) as (X & _ & Y); eapply same_wf; eassumption).
  destruct (Qeq_dec (value b) 0) as [Vb|Vb]; [rewrite !rem_dbz by assumption; first [reflexivity|apply opp_zero]|].
  unfold rem_to. cbv zeta. rewrite N. rewrite (rem_abs_same a (flip a) b b S (same_refl b)). apply finish_odd, rem_plain; assumption.
Qed.
Lemma rem_flip_r m a b res : wf b -> rem_to m a (flip b) res = rem_to m a b res.
Proof.
  intros Hb. destruct (flip_sign b Hb) as [S N]. unfold rem_to. rewrite (rem_abs_same a a b (flip b) (same_refl a) S). reflexivity.
Qed.
(** Products. *)
Lemma mul_flip_l m a b res : wf a -> wf b -> opposite_outcomes (mul_to m a b res) (mul_to m (flip a) b res).
Proof.
  intros Ha Hb. destruct (flip_sign a Ha) as [S N]. destruct (is_zero_same a (flip a) b b S (same_refl b)) as [Z _].
  unfold mul_to. rewrite Z, N, xorb_negb. destruct (is_zero a || is_zero b); [apply opp_zero|]. cbv zeta.
  rewrite (mul_abs_same a (flip a) b b S (same_refl b)). apply finish_odd, mul_plain; assumption.
Qed.
Lemma mul_flip_r m a b res : wf a -> wf b -> opposite_outcomes (mul_to m a b res) (mul_to m a (flip b) res).
Proof.
  intros Ha Hb. destruct (flip_sign b Hb) as [S N]. destruct (is_zero_same a a b (flip b) (same_refl a) S) as [_ Z].
  unfold mul_to. rewrite Z, N, xorb_negb_r. destruct (is_zero a || is_zero b); [apply opp_zero|]. cbv zeta.
  rewrite (mul_abs_same a a b (flip b) (same_refl a) S). apply finish_odd, mul_plain; assumption.
Qed.
(** Sums and differences: what is returned is exact, so only that something is. *)
Lemma set_neg_same_any d : same_digits d (set_neg d).
Proof.
  unfold same_digits, int_digits, set_neg. cbn [fd_intg fd_frac fd_lsu]. split; [|split; reflexivity].
  rewrite <- !(Z.land_ones _ 7) by lia. rewrite Z.land_lor_distr_l. change (Z.land (-128) (Z.ones 7)) with 0. apply Z.lor_0_r.
Qed.
Lemma same_trans a b c : same_digits a b -> same_digits b c -> same_digits a c.
Proof. intros (A & B & C) (D & E & F). repeat split; congruence. Qed.
Lemma check_zero_same_any d : same_digits d (set_neg_and_check_zero d).
Proof.
  unfold set_neg_and_check_zero. destruct (is_zero (set_neg d)); [|apply set_neg_same_any]. eapply same_trans; [apply set_neg_same_any|apply set_pos_same].
Qed.
Definition both (o1 o2 : outcome (result unit * fd)) : Prop :=
  match o1, o2 with
  | Ret (_, d1), Ret (_, d2) => same_digits d1 d2
  | Panic p1, Panic p2 => p1 = p2 | _, _ => False end.
Lemma same_pick (s : bool) d : same_digits d (if s then set_neg_and_check_zero d else d).
Proof. destruct s; [apply check_zero_same_any|apply same_refl]. Qed.
Lemma both_sign (o : outcome (result unit * fd)) s s' : both (bind o (fun o => finish_sign o s)) (bind o (fun o => finish_sign o s')).
Proof. destruct o as [[[u|e] d]|p]; cbn; [|apply same_refl|reflexivity]. eapply same_trans; [apply same_sym, same_pick|apply same_pick]. Qed.
Lemma both_sub (o : outcome (result bool * fd)) s s' : both (bind o (fun o => finish_sub o s)) (bind o (fun o => finish_sub o s')).
Proof. destruct o as [[[u|e] d]|p]; cbn; [|apply same_refl|reflexivity]. eapply same_trans; [apply same_sym, same_pick|apply same_pick]. Qed.
Lemma flip_wf d : wf d -> wf (flip d).
Proof. intros W. destruct (flip_same d W) as (X & _ & Y). eapply same_wf; eassumption. Qed.
Lemma flip_flip d : wf d -> flip (flip d) = d.
Proof.
  intros W. destruct (flip_same d W) as (_ & N & _). unfold flip at 1. rewrite N. unfold flip, neg in *. destruct d as [i f l]. cbn [fd_intg fd_frac fd_lsu] in *.
  destruct (i <? 0); cbn; f_equal; lia.
Qed.
Lemma add_flip m a b res : wf a -> wf b -> opposite_outcomes (add_to m a b res) (add_to m (flip a) (flip b) res).
Proof.
  intros Ha Hb. assert (B : both (add_to m a b res) (add_to m (flip a) (flip b) res)).
  { destruct (flip_sign a Ha) as [SA NA], (flip_sign b Hb) as [SB NB]. destruct (is_zero_same a (flip a) b (flip b) SA SB) as [ZA ZB].
    unfold add_to. rewrite ZA, ZB, NA, NB. destruct (is_zero a); [exact SB|]. destruct (is_zero b); [exact SA|]. cbv zeta.
    rewrite (add_abs_same a (flip a) b (flip b) SA SB), (sub_abs_same a (flip a) b (flip b) SA SB).
    replace (eqb (negb (is_neg a)) (negb (is_neg b))) with (eqb (is_neg a) (is_neg b)) by (destruct (is_neg a), (is_neg b); reflexivity).
    destruct (eqb (is_neg a) (is_neg b)); [apply both_sign|apply both_sub]. }
  destruct (add_to m a b res) as [[rs d]|p] eqn:E, (add_to m (flip a) (flip b) res) as [[rs' d']|p'] eqn:E'; cbn [both] in B; try contradiction; [|cbn; exact B].
  destruct (add_exact m a b res rs d Ha Hb E) as (-> & _ & V & _). destruct (add_exact m _ _ res rs' d' (flip_wf a Ha) (flip_wf b Hb) E') as (-> & _ & V' & _).
  first [apply opp_intro|apply eqo_intro]; [exact B|]. rewrite V, V', !flip_value by assumption. ring.
Qed.
Lemma sub_flip m a b res : wf a -> wf b -> opposite_outcomes (sub_to m a b res) (sub_to m (flip a) (flip b) res).
Proof.
  intros Ha Hb. assert (B : both (sub_to m a b res) (sub_to m (flip a) (flip b) res)).
  { destruct (flip_sign a Ha) as [SA NA], (flip_sign b Hb) as [SB NB]. destruct (is_zero_same a (flip a) b (flip b) SA SB) as [ZA ZB].
    unfold sub_to. rewrite ZA, ZB, NA, NB. destruct (is_zero a).
    { cbn. assert (X : forall (s : bool) x, same_digits x (if s then set_pos x else set_neg_and_check_zero x)) by (intros [|] x; [apply set_pos_same|apply check_zero_same_any]).
      eapply same_trans; [apply same_sym, X|]. eapply same_trans; [exact SB|]. apply X. }
    destruct (is_zero b); [exact SA|]. cbv zeta.
    rewrite (add_abs_same a (flip a) b (flip b) SA SB), (sub_abs_same a (flip a) b (flip b) SA SB).
    replace (eqb (negb (is_neg a)) (negb (is_neg b))) with (eqb (is_neg a) (is_neg b)) by (destruct (is_neg a), (is_neg b); reflexivity).
    destruct (negb (eqb (is_neg a) (is_neg b))); [apply both_sign|apply both_sub]. }
  destruct (sub_to m a b res) as [[rs d]|p] eqn:E, (sub_to m (flip a) (flip b) res) as [[rs' d']|p'] eqn:E'; cbn [both] in B; try contradiction; [|cbn; exact B].
  destruct (sub_exact m a b res rs d Ha Hb E) as (-> & _ & V & _). destruct (sub_exact m _ _ res rs' d' (flip_wf a Ha) (flip_wf b Hb) E') as (-> & _ & V' & _).
  first [apply opp_intro|apply eqo_intro]; [exact B|]. rewrite V, V', !flip_value by assumption. ring.
Qed.
Lemma sub_is_add m a b res : wf a -> wf b -> equal_outcomes (sub_to m a b res) (add_to m a (flip b) res).
Proof.
  intros Ha Hb. assert (B : both (sub_to m a b res) (add_to m a (flip b) res)).
  { destruct (flip_sign b Hb) as [SB NB]. destruct (is_zero_same a a b (flip b) (same_refl a) SB) as [_ ZB].
    unfold sub_to, add_to. rewrite ZB, NB. destruct (is_zero a).
    { cbn. assert (X : forall (s : bool) x, same_digits x (if s then set_pos x else set_neg_and_check_zero x)) by (intros [|] x; [apply set_pos_same|apply check_zero_same_any]).
      eapply same_trans; [apply same_sym, X|]. exact SB. }
    destruct (is_zero b); [apply same_refl|]. cbv zeta.
    rewrite (add_abs_same a a b (flip b) (same_refl a) SB), (sub_abs_same a a b (flip b) (same_refl a) SB).
    replace (eqb (is_neg a) (negb (is_neg b))) with (negb (eqb (is_neg a) (is_neg b))) by (destruct (is_neg a), (is_neg b); reflexivity).
    destruct (negb (eqb (is_neg a) (is_neg b))); [apply both_sign|apply both_sub]. }
  destruct (sub_to m a b res) as [[rs d]|p] eqn:E, (add_to m a (flip b) res) as [[rs' d']|p'] eqn:E'; cbn [both] in B; try contradiction; [|cbn; exact B].
  destruct (sub_exact m a b res rs d Ha Hb E) as (-> & _ & V & _). destruct (add_exact m _ _ res rs' d' Ha (flip_wf b Hb) E') as (-> & _ & V' & _).
  first [apply opp_intro|apply eqo_intro]; [exact B|]. rewrite V, V', !flip_value by assumption. ring.
Qed.
