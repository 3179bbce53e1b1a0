(** * Division and remainder: zero divisors, the leading unit. *)
From Coq Require Import ZArith List Bool Lia QArith.
From Coq Require Import ZifyBool ZifyNat.
From Verif Require Import Rust Tables Model_Base Model_Cmp Model_Arith Spec Lib Cmp AddSub Sign.
Import ListNotations.
Open Scope Z_scope.
Ltac Zify.zify_post_hook ::= Z.div_mod_to_equations.

(** [k] is the index of the leading non-zero unit among the first [n], or -1. *)
Definition leads (l : list Z) (n k : Z) : Prop :=
  (k = -1 \/ 0 <= k < n /\ 0 < zn l k) /\ (forall i, k < i < n -> zn l i = 0).

Lemma lead_ok l n : uok l -> 0 <= n <= zlen l -> exists k, lead_non_zero (Z.to_nat n) l = Ret k /\ leads l n k.
Proof.
  intros U N. replace n with (Z.of_nat (Z.to_nat n)) in * by lia. generalize dependent (Z.to_nat n). clear n.
  intros n. rewrite Nat2Z.id. induction n as [|n IH]; intros N.
  - exists (-1). split; [reflexivity|]. split; [auto|]. intros. lia.
  - cbn [lead_non_zero]. rewrite get_ok by lia. mret. destruct (Z.gtb_spec (zn l (Z.of_nat n)) 0) as [G|G].
    + exists (Z.of_nat n). split; [reflexivity|]. split; [right; lia|]. intros. lia.
    + destruct (IH ltac:(lia)) as (k & E & (K1 & K2)). exists k. split; [exact E|]. split; [destruct K1; [auto|right; lia]|].
      intros i Hi. destruct (Z.eq_dec i (Z.of_nat n)) as [->|]; [|apply K2; lia].
      pose proof (uok_zn l (Z.of_nat n) U). lia.
Qed.

Lemma leads_sg l n k : uok l -> leads l n k -> 0 <= n -> sg l 0 n = sg l 0 (k + 1).
Proof.
  intros U ([->|(K & P)] & Z0) N.
  - rewrite (sg_0 l 0 n), sg_nil by (try lia; intros; apply Z0; lia). reflexivity.
  - replace n with ((k + 1) + (n - k - 1)) by lia. rewrite sg_app by lia. rewrite (sg_0 l (0 + (k + 1))) by (intros; apply Z0; lia). lia.
Qed.
Lemma leads_neg l n k : uok l -> 0 <= n -> leads l n k -> (k < 0 <-> sg l 0 n = 0).
Proof.
  intros U N L. pose proof L as ([->|(K & P)] & Z0).
  - split; [|lia]. intros _. rewrite (leads_sg l n _ U L N). apply sg_nil. lia.
  - split; [lia|]. rewrite (leads_sg l n _ U L N). rewrite (sg_snoc l 0 k) by lia. replace (0 + k) with k by lia.
    pose proof (sg_nonneg l 0 k U). pose proof (pow_base_pos k ltac:(lia)). nia.
Qed.

Lemma div_dbz m a b res f : wf a -> wf b -> (value b == 0)%Q -> div_to m a b res f = Ret (Err DivisionByZero, zero).
Proof.
  intros Ha Hb V. pose proof (wf_counts a Ha) as CA. pose proof (wf_counts b Hb) as CB. pose proof (wf_zlen b Hb) as LB.
  unfold div_to, div_abs. rewrite !intg_ok. unfold frac. fold (frac_digits a) (frac_digits b).
  rewrite !get_units_ok by lia. mret. mret. mret. mret.
  fold (iu b) (fu b). destruct (lead_ok (fd_lsu b) (iu b + fu b)) as (k & E & L); [apply wf_uok, Hb|lia|].
  rewrite E. mret. apply value_zero_iff in V; [|exact Hb]. rewrite magnitude_sg in V.
  rewrite <- (leads_neg (fd_lsu b) (iu b + fu b) k (wf_uok b Hb) ltac:(lia) L) in V.
  replace (k <? 0) with true by lia. reflexivity.
Qed.
Lemma rem_dbz m a b res : wf a -> wf b -> (value b == 0)%Q -> rem_to m a b res = Ret (Err DivisionByZero, zero).
Proof.
  intros Ha Hb V. pose proof (wf_counts a Ha) as CA. pose proof (wf_counts b Hb) as CB. pose proof (wf_zlen b Hb) as LB.
  unfold rem_to, rem_abs. rewrite !intg_ok. unfold frac. fold (frac_digits a) (frac_digits b).
  rewrite !get_units_ok by lia. mret. mret. mret. mret.
  fold (iu b) (fu b). destruct (lead_ok (fd_lsu b) (iu b + fu b)) as (k & E & L); [apply wf_uok, Hb|lia|].
  rewrite E. mret. apply value_zero_iff in V; [|exact Hb]. rewrite magnitude_sg in V.
  rewrite <- (leads_neg (fd_lsu b) (iu b + fu b) k (wf_uok b Hb) ltac:(lia) L) in V.
  replace (k <? 0) with true by lia. reflexivity.
Qed.

(** No other way to this error. *)
Definition not_dbz {B} (o : outcome (result unit * B)) : Prop := forall d, o <> Ret (Err DivisionByZero, d).
Lemma nd_bind A B (o : outcome A) (k : A -> outcome (result unit * B)) : (forall x, not_dbz (k x)) -> not_dbz (bind o k).
Proof. intros K d E. destruct o; [|discriminate]. exact (K _ _ E). Qed.
Ltac nd1 := match goal with
  | |- not_dbz (bind _ _) => apply nd_bind; intros ?
  | |- not_dbz (Ret _) => intros ? ?; discriminate
  | |- not_dbz (Panic _) => intros ? ?; discriminate
  | |- not_dbz (let '(_, _) := ?x in _) => destruct x
  | |- not_dbz (if ?c then _ else _) => destruct c
  | |- not_dbz (match ?x with _ => _ end) => destruct x
  end.
Ltac nds := repeat (cbv beta iota zeta; nd1).

Lemma rem_finish_nd m r z u f : not_dbz (rem_finish m r z u f).
Proof. unfold rem_finish. nds. Qed.

Lemma div_not_dbz m a b res f d : wf b -> div_to m a b res f = Ret (Err DivisionByZero, d) -> (value b == 0)%Q.
Proof.
  intros Hb H. pose proof (wf_counts b Hb) as CB. pose proof (wf_zlen b Hb) as LB.
  unfold div_to, div_abs in H. rewrite (intg_ok b) in H. unfold frac in H. fold (frac_digits b) in H.
  rewrite (get_units_ok m (int_digits b)), (get_units_ok m (frac_digits b)) in H by lia.
  fold (iu b) (fu b) in H. destruct (lead_ok (fd_lsu b) (iu b + fu b)) as (k & E & L); [apply wf_uok, Hb|lia|].
  destruct (Z.ltb_spec k 0) as [K|K].
  { apply value_zero_iff; [exact Hb|]. rewrite magnitude_sg. apply (leads_neg (fd_lsu b) (iu b + fu b) k (wf_uok b Hb) ltac:(lia) L), K. }
  exfalso. revert H.
  match goal with |- bind ?o ?k = _ -> _ => assert (ND : not_dbz o) end.
  { do 2 (cbv zeta; apply nd_bind; intros ?). cbv zeta. rewrite !bind_Ret. cbv beta zeta. rewrite E. rewrite bind_Ret. cbv beta.
    replace (k <? 0) with false by lia. nds. }
  match goal with |- bind ?o ?k = _ -> _ => destruct o as [[rs d0]|p] eqn:EO end; [|discriminate].
  rewrite bind_Ret. cbn. destruct rs as [u|e]; [discriminate|]. intros H. injection H as -> <-. exact (ND _ eq_refl).
Qed.
Lemma rem_not_dbz m a b res d : wf b -> rem_to m a b res = Ret (Err DivisionByZero, d) -> (value b == 0)%Q.
Proof.
  intros Hb H. pose proof (wf_counts b Hb) as CB. pose proof (wf_zlen b Hb) as LB.
  unfold rem_to, rem_abs in H. rewrite (intg_ok b) in H. unfold frac in H. fold (frac_digits b) in H.
  rewrite (get_units_ok m (int_digits b)), (get_units_ok m (frac_digits b)) in H by lia.
  fold (iu b) (fu b) in H. destruct (lead_ok (fd_lsu b) (iu b + fu b)) as (k & E & L); [apply wf_uok, Hb|lia|].
  destruct (Z.ltb_spec k 0) as [K|K].
  { apply value_zero_iff; [exact Hb|]. rewrite magnitude_sg. apply (leads_neg (fd_lsu b) (iu b + fu b) k (wf_uok b Hb) ltac:(lia) L), K. }
  exfalso. revert H.
  match goal with |- bind ?o ?k = _ -> _ => assert (ND : not_dbz o) end.
  { do 2 (cbv zeta; apply nd_bind; intros ?). cbv zeta. rewrite !bind_Ret. cbv beta zeta. rewrite E. rewrite bind_Ret. cbv beta.
    replace (k <? 0) with false by lia. repeat (cbv beta iota zeta; first [apply rem_finish_nd | nd1]). }
  match goal with |- bind ?o ?k = _ -> _ => destruct o as [[rs d0]|p] eqn:EO end; [|discriminate].
  rewrite bind_Ret. cbn. destruct rs as [u|e]; [discriminate|]. intros H. injection H as -> <-. exact (ND _ eq_refl).
Qed.
