(** * The debug-only array read of the remainder is in bounds for operands with room. *)
From Coq Require Import ZArith List Bool Lia QArith.
From Coq Require Import ZifyBool ZifyNat.
From Verif Require Import Rust Tables Model_Base Model_Cmp Model_Arith Spec Lib Cmp AddSub Sign Mul DivBasics Div Div2 Div3 Div4 Div5 DivQ Rem Rem2 Rem3 Rem4 Rem5 Agree Spec_Rem RemFull.
Import ListNotations.
Open Scope Z_scope.

Lemma sim_bind_ret A B (o o' : outcome A) (k k' : A -> outcome B) :
  sim o o' -> (forall x, o' = Ret x -> sim (k x) (k' x)) -> sim (bind o k) (bind o' k').
Proof.
  intros [->|[->| ->]] K; [|right; left; reflexivity|right; right; reflexivity].
  destruct o' as [x|p]; [apply K; reflexivity|apply sim_refl].
Qed.

Lemma s_rem_bufs nf ls rs l1 r1 b1 b2 : sim (rem_bufs Debug nf ls rs l1 r1 b1 b2) (rem_bufs Release nf ls rs l1 r1 b1 b2).
Proof. dosim rem_bufs. Qed.

Lemma s_rem_long a b lnz rnz ge lsh rsh : 0 <= lnz + 1 + lsh < 18 -> sim (rem_long Debug a b lnz rnz ge lsh rsh) (rem_long Release a b lnz rnz ge lsh rsh).
Proof.
  intros R. unfold rem_long. cbv zeta. apply sim_bind; [apply sim_i64|intros t]. apply sim_bind; [unfold i64_div; sims|intros nf].
  apply sim_bind_ret; [apply s_rem_bufs|intros [buf1 buf2] EB]. apply rem_bufs_len in EB.
  apply sim_bind; [apply sim_refl|intros d0]. apply sim_bind; [apply sim_refl|intros d1]. apply sim_bind; [apply sim_refl|intros b2].
  apply sim_bind_ret; [apply s_long_rem|intros bf EL]. apply long_rem_len in EL.
  rewrite get_ok by lia. rewrite !bind_Ret. apply sim_bind; [destruct (zn bf (lnz + 1 + lsh) =? 0); [apply sim_refl|right; right; reflexivity]|intros _].
  sims.
Qed.

Lemma s_rem_abs_room a b res : wf a -> wf b -> magnitude b <> 0 -> ~ too_long Debug a b -> sim (rem_abs Debug a b res) (rem_abs Release a b res).
Proof.
  intros Ha Hb Nb R. pose proof (wf_counts a Ha) as CA. pose proof (wf_counts b Hb) as CB.
  destruct (Z.eq_dec (magnitude a) 0) as [Na|Na]; [rewrite !rem_zero_dividend by assumption; apply sim_refl|].
  destruct (rem_plan_all a b Ha Hb Na Nb) as (lnz & rnz & L & E). rewrite !E. destruct (amag a ?= amag b); [apply sim_refl|apply sim_refl|].
  pose proof (l2_a0 a b lnz rnz L) as A0. pose proof (l2_b0 a b lnz rnz L) as B0. apply sim_bind; [|intros [r nz]; apply s_rem_finish]. rewrite (too_long_iff Debug a b lnz rnz Ha Hb L) in R.
  destruct (Z.eqb_spec rnz 0) as [Y|Y]; [dosim rem_short|apply s_rem_long]. destruct (Z.eq_dec (lnz + 1 + lsh a b) 18) as [X|X]; [exfalso; apply R; split; [clear - Y B0; lia|auto]|]. unfold lsh in *. clear - X A0 CA CB. lia.
Qed.
Lemma s_rem_to_room a b res : wf a -> wf b -> ~ too_long Debug a b -> sim (rem_to Debug a b res) (rem_to Release a b res).
Proof.
  intros Ha Hb R. destruct (Qeq_dec (value b) 0) as [V|V]; [rewrite !rem_dbz by assumption; apply sim_refl|]. rewrite value_zero_iff in V by assumption.
  unfold rem_to. cbv zeta. apply sim_bind; [apply s_rem_abs_room; assumption|intros; apply sim_refl].
Qed.
