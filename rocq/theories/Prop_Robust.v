(** * Properties: division and remainder whatever the guesses of the quotient
    units are (C26, and further parts of C34, C35, C36, C37, C53). No
    hypothesis on the digits of divisor or quotient: this is what remains true of
    the operands for which the quotient or remainder is wrong. *)
From Coq Require Import ZArith List Bool String Lia QArith Qabs.
From Verif Require Import Rust Model_Base Model_Cmp Model_Arith Model_Serde Spec Spec_Div Lib Sign Basics QLib DivQ DivG2 DivFit Div5 DivBasics AddSubQ MulQ Agree Robust Robust2 Robust3 Spec_Rem RemFull Prop_Div Tests Witness.
Import ListNotations.
Open Scope Z_scope.

(** C26: no quotient and no remainder is a negative zero (the operands may
    even be; sums, differences and products are in the files on those). *)
Theorem C26_no_negative_zero_div : forall m a b res incr rs d, wf a -> wf b -> div_to m a b res incr = Ret (rs, d) -> ~ negzero d.
Proof.
  intros m a b res incr rs d Ha Hb H.
  destruct (Qeq_dec (value b) 0) as [Vb|Vb].
  { rewrite (div_dbz m a b res incr Ha Hb Vb) in H. injection H as <- <-. intros [N _]. discriminate N. }
  destruct (Qeq_dec (value a) 0) as [V|V].
  { rewrite (div_to_zero m a b res incr Ha Hb V Vb) in H. injection H as <- <-. intros [N _]. discriminate N. }
  apply (div_to_any m a b res incr rs d Ha Hb V Vb H).
Qed.
Print Assumptions C26_no_negative_zero_div.
Theorem C26_no_negative_zero_rem : forall m a b res rs d, wf a -> wf b -> rem_to m a b res = Ret (rs, d) -> ~ negzero d.
Proof.
  intros m a b res rs d Ha Hb H.
  destruct (Qeq_dec (value b) 0) as [Vb|Vb].
  { rewrite (rem_dbz m a b res Ha Hb Vb) in H. injection H as <- <-. intros [N _]. discriminate N. }
  apply (rem_to_any m a b res rs d Ha Hb Vb H).
Qed.
Print Assumptions C26_no_negative_zero_rem.
Example C26_div_rem_example : let a := dec "-1" in let b := dec "100000000000000000000000000000000000000000000000" in let c := dec "-0" in
  wf a /\ wf b /\ wf c /\ (exists d, div_to Debug a b zero 4 = Ret (Ok tt, d) /\ (value d == 0)%Q /\ neg d = false) /\
  (exists d, div_to Debug c b zero 4 = Ret (Ok tt, d)) /\ exists d, rem_to Debug (dec "-10") (dec "5") zero = Ret (Ok tt, d) /\ (value d == 0)%Q.
Proof.
  hyps; eexists; [split; [vm_compute; reflexivity|]; split; vm_compute; reflexivity|vm_compute; reflexivity|split; [vm_compute; reflexivity|]; vm_compute; reflexivity].
Qed.
(** It is false for products of quotients: 5000000000 / 10 is 500000000
    declared with eight integral digits, and its product with -2 is a zero with the sign
    flag set, in both builds, though no operand is. *)
Theorem C26_no_negative_zero_refuted : exists q p, (forall m, div_to m (dec "5000000000") (dec "10") zero 4 = Ret (Ok tt, q)) /\
  wf q /\ clean q /\ ~ negzero q /\ (value q == 500000000)%Q /\ ~ negzero (dec "-2") /\
  (forall m, mul_to m q (dec "-2") zero = Ret (Ok tt, p)) /\ negzero p.
Proof.
  do 2 eexists. split; [intros [|]; vm_compute; reflexivity|]. split; [hyps|]. split; [hyps|]. split; [hyps|]. split; [vm_compute; reflexivity|].
  split; [hyps|]. split; [intros [|]; vm_compute; reflexivity|]. split; vm_compute; reflexivity.
Qed.
Print Assumptions C26_no_negative_zero_refuted.

(** C34: whatever is returned has the integral units of the true quotient and
    its sign; and an overflow is returned exactly for a quotient of more than 81
    integral digits. *)
Theorem C34_any_divisor_partial : forall m a b res incr rs d, wf a -> wf b -> ~ (value a == 0)%Q -> ~ (value b == 0)%Q ->
  div_to m a b res incr = Ret (rs, d) ->
  (rs = Err Overflow <-> (pow10 81 <= Qabs (value a / value b))%Q) /\ (rs = Err Overflow -> d = zero) /\
  (rs = Ok tt -> exists e, (pow10 (9 * (e - 1)) <= Qabs (value a / value b) < pow10 (9 * e))%Q /\ iu d = Z.max 0 e) /\
  (~ (value d == 0)%Q -> neg d = xorb (neg a) (neg b)) /\ frac_digits d = 9 * fu d /\ frac_digits d <= 36 /\ clean d.
Proof.
  intros m a b res incr rs d Ha Hb Va Vb H. destruct (div_to_any m a b res incr rs d Ha Hb Va Vb H) as (L & _ & _ & S & e & E1 & E2 & C).
  set (q := Qabs (value a / value b)) in *. clearbody q. pose proof (lr_frac m d L) as F. pose proof (lr_fu m d L) as G.
  split; [|split; [|split; [|split; [exact S|split; [exact F|split; [change (frac_digits d) with (fd_frac d); lia|apply (lr_clean m d L)]]]]]].
  - destruct C as [(O & -> & _)|(O & -> & _)].
    + split; [intros _|reflexivity]. eapply Qle_trans; [|exact E1]. apply pow10_mono. lia.
    + split; [discriminate|]. intros X. exfalso. pose proof (Qle_lt_trans _ _ _ X E2) as Y. apply Qpow10_lt in Y. lia.
  - destruct C as [(O & _ & D)|(O & -> & _)]; [intros _; exact D|discriminate].
  - destruct C as [(O & -> & _)|(O & _ & I)]; [discriminate|]. intros _. exists e. split; [split; assumption|exact I].
Qed.
Print Assumptions C34_any_divisor_partial.
(** A quotient of a negative dividend, guessed wrong (its unit 999999999 is
    not even below 10^9): integral units and sign are right. *)
Example C34_any_divisor_example : let a := dec "-999999999000000002" in let b := dec "1.000000000000000001" in
  wf a /\ wf b /\ ~ (value a == 0)%Q /\ ~ (value b == 0)%Q /\ exists d, div_to Release a b zero 4 = Ret (Ok tt, d) /\ ~ wf d /\ iu d = 2 /\ neg d = true.
Proof.
  hyps. eexists. split; [vm_compute; reflexivity|]. split; [|split; vm_compute; reflexivity].
  intros W. apply wf_units in W. inversion W as [|? ? H ?]. destruct H as [_ H]. vm_compute in H. discriminate H.
Qed.

(** C36: what a debug build returns is always a decimal; so it can be
    compared, added and subtracted. *)
Theorem C36_debug_quotients_partial : forall a b res incr rs q, wf a -> wf b -> div_to Debug a b res incr = Ret (rs, q) ->
  wf q /\ clean q /\ nohidden q /\ ~ negzero q.
Proof.
  intros a b res incr rs q Ha Hb H. pose proof (C26_no_negative_zero_div Debug a b res incr rs q Ha Hb H) as NZ.
  destruct (Qeq_dec (value b) 0) as [Vb|Vb].
  { rewrite (div_dbz Debug a b res incr Ha Hb Vb) in H. injection H as <- <-. hyps. }
  destruct (Qeq_dec (value a) 0) as [V|V].
  { rewrite (div_to_zero Debug a b res incr Ha Hb V Vb) in H. injection H as <- <-. hyps. }
  destruct (div_to_any Debug a b res incr rs q Ha Hb V Vb H) as (L & _). destruct (loose_wf q L) as (W & C & N). auto.
Qed.
Print Assumptions C36_debug_quotients_partial.
Theorem C36_debug_operands_partial : forall a b res incr q, wf a -> wf b -> div_to Debug a b res incr = Ret (Ok tt, q) ->
  forall m' c res', wf c -> clean c -> ~ negzero c ->
  cmp m' q c = Ret (Qcompare (value q) (value c)) /\ 
  (forall rs d, add_to m' q c res' = Ret (rs, d) \/ add_to m' c q res' = Ret (rs, d) -> rs = Ok tt /\ wf d /\ clean d /\ (value d == value q + value c)%Q) /\
  (forall rs d, sub_to m' q c res' = Ret (rs, d) -> rs = Ok tt /\ wf d /\ clean d /\ (value d == value q - value c)%Q).
Proof.
  intros a b res incr q Ha Hb H m' c res' Wc Cc Nc. destruct (C36_debug_quotients_partial a b res incr _ q Ha Hb H) as (W & C & _ & NZ).
  exact (operand_facts m' q c res' W C NZ Wc Cc Nc).
Qed.
Print Assumptions C36_debug_operands_partial.
(** The operands of [C34_truncated_quotient_refuted], where the quotient is wrong. *)
Example C36_debug_example : let a := dec "499999999500000000" in let b := dec "999999999000000000.500000001" in wf a /\ wf b /\
  exists q, div_to Debug a b zero 4 = Ret (Ok tt, q) /\ to_string Debug q (-1) = Ret (bytes "0.499999999000000000").
Proof. hyps. eexists. split; [vm_compute; reflexivity|]. vm_compute. reflexivity. Qed.

(** C35: a release build divides a dividend of at most eight units by every
    non-zero divisor without a panic. *)
Theorem C35_release_returns_partial : forall a b res incr, wf a -> wf b -> ~ (value b == 0)%Q -> 0 <= incr -> div_room a b incr ->
  iu a + fu a <= 8 -> exists o, div_to Release a b res incr = Ret o.
Proof. intros a b res incr Ha Hb Nb Hi Rm R8. apply div_to_returns_gen; try assumption. apply long_returns_release; assumption. Qed.
Print Assumptions C35_release_returns_partial.
(** ... and in general, exactly the divisions that fit (see [Spec_Div]). *)
Theorem C35_release_returns_iff_it_fits : forall a b res incr, wf a -> wf b -> ~ (value a == 0)%Q -> ~ (value b == 0)%Q -> 0 <= incr -> sane_request a b incr ->
  ((exists o, div_to Release a b res incr = Ret o) <-> division_fits a b incr).
Proof.
  intros a b res incr Ha Hb Va Vb Hi Sn. destruct (div_to_fits Release a b res incr Ha Hb Va Vb Hi Sn) as [F1 F2]. split.
  - intros (o & E). exact (F2 o E).
  - apply F1. apply long_returns_release; assumption.
Qed.
Print Assumptions C35_release_returns_iff_it_fits.
Example C35_release_example : let a := dec "1" in let b := dec "1.000000000000000001" in wf a /\ wf b /\ ~ (value b == 0)%Q /\ div_room a b 4 /\ iu a + fu a <= 8 /\
  exists d, div_to Release a b zero 4 = Ret (Ok tt, d).
Proof. hyps. eexists. vm_compute. reflexivity. Qed.

(** C37: whatever is returned is a decimal, has the sign of the dividend, and
    is less than four times the divisor. *)
Theorem C37_any_remainder_partial : forall m a b res rs d, wf a -> wf b -> ~ (value b == 0)%Q -> rem_to m a b res = Ret (rs, d) ->
  rs = Ok tt /\ wf d /\ clean d /\ (tight a -> tight d) /\ ~ negzero d /\ (~ (value d == 0)%Q -> neg d = neg a) /\ (Qabs (value d) < 4 * Qabs (value b))%Q.
Proof. exact rem_to_any. Qed.
Print Assumptions C37_any_remainder_partial.
(** The operands of a wrong remainder. *)
Example C37_any_remainder_example : let a := dec "-500000000000000000999999998000000000" in let b := dec "500000000000000000999999999" in
  wf a /\ wf b /\ ~ (value b == 0)%Q /\ tight a /\ exists d, rem_to Release a b zero = Ret (Ok tt, d) /\ neg d = true /\ wf d.
Proof. hyps. eexists. split; [vm_compute; reflexivity|]. hyps. Qed.

(** C53: a release build panics exactly for the dividends of
    [C53_small_dividend_panics_refuted] and [C53_too_long_panics_refuted]. *)
Theorem C53_release_returns_partial : forall a b res, wf a -> wf b -> ~ (value b == 0)%Q -> ~ too_long Release a b ->
  (value a == 0)%Q \/ (Qabs (value b) <= Qabs (value a))%Q \/ fu b <= fu a \/ iu a + fu b <= 9 ->
  exists d, rem_to Release a b res = Ret (Ok tt, d).
Proof. exact rem_to_release_returns. Qed.
Print Assumptions C53_release_returns_partial.
Example C53_release_example : let a := dec "500000000000000000999999998000000000" in let b := dec "500000000000000000999999999" in
  wf a /\ wf b /\ ~ (value b == 0)%Q /\ iu a + fu b <= 9 /\ exists d, rem_to Release a b zero = Ret (Ok tt, d).
Proof. hyps. eexists. vm_compute. reflexivity. Qed.
