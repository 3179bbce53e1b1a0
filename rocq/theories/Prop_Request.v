(** * Properties: division whatever the number of digits asked for (C92). *)
From Coq Require Import ZArith List Bool String Lia QArith Qabs.
From Coq Require Import ZifyBool.
From Verif Require Import Rust Model_Base Model_Cmp Model_Round Model_Decimal Model_Arith Model_Serde Spec Spec_Div Spec_Request Lib Sign Basics QLib RoundQ DivQ DivFit DivBasics DivReq
  Prop_Div Prop_Robust Tests Witness.
Import ListNotations.
Open Scope Z_scope.

(** C92: every quotient that is returned, whatever the digits asked for, is the exact quotient truncated to the digits it has; the number of
    these is the number of groups taken, at most four and as many as fit. *)
Theorem C92_every_request_truncates : forall m a b res incr d, wf a -> wf b -> ~ (value b == 0)%Q -> 0 <= incr < 18446744073709551616 ->
  div_to m a b res incr = Ret (Ok tt, d) ->
  (significant_units 2 b \/ tame (fu d) a b -> wf d /\ clean d /\ nohidden d /\ ~ negzero d /\ (value d == truncate_at (value a / value b) (frac_digits d))%Q) /\
  (~ (value a == 0)%Q -> frac_digits d = 9 * Z.min 4 (Z.min (9 - iu d) (groups_taken a b incr))).
Proof.
  intros m a b res incr d Wa Wb Nb Hi H. destruct (Qeq_dec (value a) 0) as [Va|Va].
  - rewrite (div_to_zero m a b res incr Wa Wb Va Nb) in H. assert (d = zero) as -> by congruence. split; [|intros X; contradiction].
    intros _. split; [hyps|]. split; [hyps|]. split; [hyps|]. split; [hyps|].
    rewrite (truncate_at_comp _ 0) by (rewrite Va; unfold Qdiv; ring). reflexivity.
  - destruct (div_to_run_any m a b res incr _ d Wa Wb Va Nb Hi H) as (_ & e & _ & _ & [(_ & X & _)|(_ & _ & I & F1 & F2 & S)]); [discriminate X|].
    split; [|intros _; rewrite F1, F2; reflexivity]. intros T. destruct (S T) as (W & C & N & Z & _ & V). auto 6.
Qed.
Print Assumptions C92_every_request_truncates.

(** Only the digits taken matter: a request and the same request modulo 256 have the same outcome, down to the panic. *)
Theorem C92_requests_modulo_256 : forall m a b res incr incr', wf a -> wf b -> 0 <= incr < 18446744073709551616 -> 0 <= incr' < 18446744073709551616 ->
  (m = Release \/ forall i, i = incr \/ i = incr' -> i <= 9223372036854775645 \/ 9223372036854775824 <= i) ->
  digits_taken a b incr = digits_taken a b incr' -> div_to m a b res incr = div_to m a b res incr'.
Proof.
  intros m a b res incr incr' Wa Wb Hi Hi' R E.
  destruct (Qeq_dec (value b) 0) as [Vb|Vb]; [rewrite !(div_dbz m a b res) by assumption; reflexivity|].
  destruct (Qeq_dec (value a) 0) as [Va|Va]; [rewrite !(div_to_zero m a b res) by assumption; reflexivity|].
  rewrite value_zero_iff in Va, Vb by assumption. unfold div_to. cbv zeta.
  destruct (div_abs_request m a b res Wa Wb Va Vb) as (K & EK & _). rewrite !EK.
  rewrite (proj2 (request_taken m a b incr Wa Wb Hi)), (proj2 (request_taken m a b incr' Wa Wb Hi')), E; [reflexivity|..];
    (destruct R as [R|R]; [left; exact R|right]); [specialize (R incr' (or_intror eq_refl))|specialize (R incr (or_introl eq_refl))]; lia.
Qed.
Print Assumptions C92_requests_modulo_256.

(** In particular 256 more digits are no more digits at all, and a request of 2^63 digits or (a little) more is none. *)
Theorem C92_256_more_digits : forall m a b res incr k, wf a -> wf b -> 0 <= incr -> 0 <= k -> 9 * (fu a + fu b) <= frac_digits a + frac_digits b + incr ->
  incr + 256 * k <= 9223372036854775645 -> div_to m a b res (incr + 256 * k) = div_to m a b res incr.
Proof.
  intros m a b res incr k Wa Wb Hi Hk G B. apply C92_requests_modulo_256; try assumption; try lia; [right; intros i [->| ->]; left; lia|]. unfold digits_taken, as_signed. cbv zeta.
  replace (incr + 256 * k <? 9223372036854775808) with true by lia. replace (incr <? 9223372036854775808) with true by lia.
  replace (frac_digits a + frac_digits b + (incr + 256 * k) <? 9 * (fu a + fu b)) with false by lia.
  replace (frac_digits a + frac_digits b + incr <? 9 * (fu a + fu b)) with false by lia. cbn [andb].
  replace (frac_digits a + frac_digits b + (incr + 256 * k)) with (frac_digits a + frac_digits b + incr + k * 256) by lia. apply Z.mod_add. lia.
Qed.
Print Assumptions C92_256_more_digits.

Theorem C92_requests_past_2_63 : forall m a b res incr, wf a -> wf b -> 9223372036854775824 <= incr < 18446744073709551616 ->
  div_to m a b res incr = div_to m a b res 0.
Proof.
  intros m a b res incr Wa Wb B. apply C92_requests_modulo_256; try assumption; try lia; [right; intros i [->| ->]; [right|left]; lia|].
  pose proof (wf_counts a Wa) as CA. pose proof (wf_counts b Wb) as CB. 
  unfold digits_taken, as_signed. cbv zeta.
  replace (incr <? 9223372036854775808) with false by lia. change (0 <? 9223372036854775808) with true. cbv iota.
  assert (FAu : frac_digits a <= 9 * fu a) by (unfold fu, units_for; lia). assert (FBu : frac_digits b <= 9 * fu b) by (unfold fu, units_for; lia).
  assert (FAl : 9 * fu a <= frac_digits a + 8) by (unfold fu, units_for; lia). assert (FBl : 9 * fu b <= frac_digits b + 8) by (unfold fu, units_for; lia).
  set (e := 9 * (fu a + fu b)) in *. set (f := frac_digits a + frac_digits b) in *.
  assert (BE : 0 <= f <= e /\ e <= f + 16 /\ e <= 162) by lia. clearbody e f. clear - B BE.
  replace ((f + (incr - 18446744073709551616) <? e) && (e - 9223372036854775808 <=? f + (incr - 18446744073709551616))) with true by lia.
  destruct (Z.ltb_spec (f + 0) e) as [L|L]; cbn [andb].
  - replace (e - 9223372036854775808 <=? f + 0) with true by lia. reflexivity.
  - f_equal. lia.
Qed.
Print Assumptions C92_requests_past_2_63.

(** And 120 to 247 digits (modulo 256) cannot be asked for. *)
Theorem C92_impossible_requests : forall m a b res incr, wf a -> wf b -> ~ (value a == 0)%Q -> ~ (value b == 0)%Q -> 0 <= incr < 18446744073709551616 ->
  120 <= digits_taken a b incr <= 247 -> forall o, div_to m a b res incr <> Ret o.
Proof.
  intros m a b res incr Wa Wb Va Vb Hi D [rs d] H. destruct (div_to_run_any m a b res incr rs d Wa Wb Va Vb Hi H) as (X & _). lia.
Qed.
Print Assumptions C92_impossible_requests.

(** 1.5 / 0.4 with 254 more digits is 3, with 256 more 3.750000000, with 20 + 256 million more the same as with 20, and with 2^64 - 1 more the same as with none. *)
Example C92_example : let a := dec "1.5" in let b := dec "-0.4" in wf a /\ wf b /\ ~ (value a == 0)%Q /\ ~ (value b == 0)%Q /\ significant_units 2 b /\
  digits_taken a b 254 = 0 /\ digits_taken a b 256 = 2 /\ digits_taken a b 240 = 242 /\ 9 * (fu a + fu b) <= frac_digits a + frac_digits b + 20 /\
  (forall m, exists d e f, div_to m a b zero 254 = Ret (Ok tt, d) /\ to_string m d (-1) = Ret (bytes "-3") /\
     div_to m a b zero 256 = Ret (Ok tt, e) /\ to_string m e (-1) = Ret (bytes "-3.750000000") /\
     div_to m a b zero (20 + 256 * 1000000) = Ret (Ok tt, f) /\ div_to m a b zero 20 = Ret (Ok tt, f) /\
     div_to m a b zero 18446744073709551615 = div_to m a b zero 0).
Proof.
  cbv zeta. assert (Wa : wf (dec "1.5")) by hyps. assert (Wb : wf (dec "-0.4")) by hyps.
  split; [exact Wa|]. split; [exact Wb|]. split; [hyps|]. split; [hyps|]. split; [sigu 400000000 0|].
  split; [vm_compute; reflexivity|]. split; [vm_compute; reflexivity|]. split; [vm_compute; reflexivity|]. split; [vm_compute; discriminate|].
  intros m. destruct m.
  all: do 3 eexists; split; [vm_compute; reflexivity|]; split; [vm_compute; reflexivity|]; split; [vm_compute; reflexivity|]; split; [vm_compute; reflexivity|]; split; [vm_compute; reflexivity|];
    split; [vm_compute; reflexivity|]; vm_compute; reflexivity.
Qed.
