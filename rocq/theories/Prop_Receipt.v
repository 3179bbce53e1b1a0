(** * Property C110: invoices every line of which is rounded. *)
From Coq Require Import ZArith List Bool String Lia QArith Qabs Lqa.
From Verif Require Import Rust Model_Base Model_Cmp Model_Round Model_Decimal Model_Arith Model_Serde Spec Spec_Machine Spec_History Spec_Ledger Spec_Receipt Lib Cmp AddSub Sign AddTo AddSubQ Basics QLib Round RoundTo RoundQ Conv
  ParseMain Scan ParseThms MulAbs MulQ MulLaws Laws History Prop_AddSub Prop_Print Prop_Exact Prop_History Prop_Ledger Prop_Split Prop_Convert Tests Witness.
Import ListNotations.
Open Scope Z_scope.

Lemma sum_digits m a b res d f : wf a -> wf b -> clean a -> clean b -> add_to m a b res = Ret (Ok tt, d) -> frac_digits a <= f -> frac_digits b <= f -> frac_digits d <= f.
Proof.
  intros Ha Hb Ca Cb H A B. pose proof (C22_addition_is_exact m a b res (Ok tt) d Ha Hb H) as (_ & _ & _ & X). unfold add_to in H.
  destruct (is_zero a) eqn:Za; [injection H as <-; exact B|]. destruct (is_zero b) eqn:Zb; [injection H as <-; exact A|].
  rewrite X; [apply Z.max_lub; assumption| |]; intros Z0; [apply (is_zero_of_value a Ha Ca) in Z0|apply (is_zero_of_value b Hb Cb) in Z0]; congruence.
Qed.
Lemma rounded_below v f : 0 <= f -> (Qabs (round_at v f) <= Qabs v + 1)%Q.
Proof.
  intros F. pose proof (round_at_close v f) as C. assert (P : (pow10 (- f) <= 1)%Q) by (rewrite <- pow10_0; apply pow10_le; lia).
  assert (T : (Qabs (round_at v f) <= Qabs (round_at v f - v) + Qabs v)%Q).
  { eapply Qle_trans; [|apply Qabs_triangle]. setoid_replace (round_at v f - v + v)%Q with (round_at v f) by ring. apply Qle_refl. }
  set (r := Qabs (round_at v f - v)) in *. set (u := pow10 (- f)) in *. clearbody r u. lra.
Qed.
Lemma receipt_near f l : (Qabs (receipt_total f l - invoice_total l) <= inject_Z (zlength l) * (pow10 (- f) * (1 # 2)))%Q.
Proof.
  induction l as [|[p q] l IH]; [vm_compute; discriminate|]. cbn [receipt_total invoice_total fold_right]. fold (receipt_total f l). fold (invoice_total l).
  set (v := (numeral_value p * numeral_value q)%Q). pose proof (round_at_close v f) as C. rewrite zlength_cons, inject_Z_plus. change (inject_Z 1) with 1%Q.
  setoid_replace (round_at v f + receipt_total f l - (v + invoice_total l))%Q with ((round_at v f - v) + (receipt_total f l - invoice_total l))%Q by ring.
  eapply Qle_trans; [apply Qabs_triangle|]. set (u := (pow10 (- f) * (1 # 2))%Q) in *. clearbody u. rewrite Qmult_plus_distr_l. lra.
Qed.

Lemma receipt_states m f l : 0 <= f <= 27 -> Forall (fun pq => entry_ok (fst pq) /\ entry_ok (snd pq)) l -> (m = Debug -> Forall debug_line l) ->
  forall st x, ready small01 st -> (value (st 3%nat) == x)%Q -> frac_digits (st 3%nat) <= f -> (Qabs x + invoice_size l + inject_Z (zlength l) < pow10 36)%Q ->
  exists st', ok_history m st (receipt f l) st' /\ ready small01 st' /\ (value (st' 3%nat) == x + receipt_total f l)%Q /\ frac_digits (st' 3%nat) <= f.
Proof.
  intros Hf. induction 1 as [|[p q] l [P Q] F IH]; intros D st x R X FX B.
  - exists st. split; [constructor|]. split; [exact R|]. split; [|exact FX]. change (receipt_total f []) with 0%Q. rewrite X. ring.
  - cbn [fst snd] in P, Q. cbn [invoice_size fold_right] in B. fold (invoice_size l) in B. pose proof (invoice_size_pos l) as SP. rewrite zlength_cons, inject_Z_plus in B. change (inject_Z 1) with 1%Q in B.
    assert (LP : (0 <= inject_Z (zlength l))%Q) by (change 0%Q with (inject_Z 0); rewrite <- Zle_Qle; apply zlength_nonneg).
    set (v := (numeral_value p * numeral_value q)%Q) in *. set (r := round_at v f). pose proof (rounded_below v f ltac:(lia)) as RB. fold r in RB.
    pose proof (Qabs_triangle x r) as T. pose proof (Qabs_nonneg x) as N3. pose proof (Qabs_nonneg v) as Nv.
    assert (S2 : (inject_Z (base ^ 2) < pow10 36)%Q) by (vm_compute; reflexivity).
    assert (W : forall n, entry_ok n -> within_limits n) by (intros n (_ & EX & Fn & Dn); split; [exact EX|lia]).
    assert (MP : forall k n y, entry_ok n -> meaning y (Parse k (numeral_bytes n) true) (numeral_value n)).
    { intros k n y En. left. exists n. repeat split; try apply En; try apply (W n En); reflexivity. }
    destruct (ledger_step m small01 st (Parse 0 (numeral_bytes p) true) (numeral_value p) R (entry_call 0 p ltac:(lia) P) (MP 0%nat p _ P) ltac:(eapply Qlt_trans; [apply entry_below, P|exact S2]) ltac:(intros; discriminate)) as (d1 & E1 & V1 & R1).
    cbn [target] in R1. set (st1 := write st 0%nat d1) in *.
    destruct (ledger_step m small01 st1 (Parse 1 (numeral_bytes q) true) (numeral_value q) R1 (entry_call 1 q ltac:(lia) Q) (MP 1%nat q _ Q) ltac:(eapply Qlt_trans; [apply entry_below, Q|exact S2]) ltac:(intros; discriminate)) as (d2 & E2 & V2 & R2).
    cbn [target] in R2. set (st2 := write st1 1%nat d2) in *.
    destruct (ledger_step m small01 st2 (Mul 0 1 2) v R2) as (d3 & E3 & V3 & R3).
    { cbn. auto. }
    { cbn [meaning]. change (st2 0%nat) with d1. change (st2 1%nat) with d2. rewrite V1, V2. reflexivity. }
    { lra. }
    { intros i j k Eq M. injection Eq as <- <- <-. change (st2 0%nat) with d1. change (st2 1%nat) with d2. specialize (D M). inversion D as [|? ? D1 _]; subst. unfold debug_line in D1. cbn [fst snd] in D1.
      destruct D1 as [D1|[D1|[D1|D1]]]; [left; rewrite V1; exact D1|right; left; rewrite V2; exact D1|right; right|right; right].
      - apply int_units_positive; [exact (proj1 (proj1 (R1 0%nat)))|rewrite V1; exact D1].
      - destruct (parse_accepts Debug (st 0%nat) true p (proj1 (proj1 (R 0%nat))) (proj1 P) (W p P)) as (d' & E' & PD). cbn [perform] in E1. rewrite E' in E1. injection E1 as <-.
        pose proof (p_int _ _ _ PD) as I. unfold iu. rewrite I. set (z := numeral_digits p - numeral_frac p) in *. clearbody z. clear - D1. unfold units_for. Z.to_euclidean_division_equations. lia. }
    cbn [target] in R3. set (st3 := write st2 2%nat d3) in *.
    destruct (ledger_step m small01 st3 (RoundTo 2 5 f) r R3) as (d6 & E6 & V6 & R6).
    { split; [reflexivity|exact Hf]. }
    { cbn [meaning]. change (st3 2%nat) with d3. unfold r. apply round_at_comp. rewrite V3. reflexivity. }
    { lra. }
    { intros; discriminate. }
    cbn [target] in R6. set (st6 := write st3 5%nat d6) in *.
    assert (FE : frac_digits d6 = f).
    { cbn [perform] in E6. apply bind_inv in E6. destruct E6 as (d' & E & H). injection H as ->. destruct (R3 2%nat) as [(W3 & _ & _ & N0) _].
      apply (round_to_spec_ret m (st3 2%nat) (st3 5%nat) f d6 W3 ltac:(lia) (or_intror N0) E). }
    destruct (ledger_step m small01 st6 (Add 3 5 4) (x + r)%Q R6) as (d4 & E4 & V4 & R4).
    { reflexivity. }
    { cbn [meaning]. change (st6 3%nat) with (st 3%nat). change (st6 5%nat) with d6. rewrite X, V6. reflexivity. }
    { lra. }
    { intros; discriminate. }
    assert (F4 : frac_digits d4 <= f).
    { cbn [perform] in E4. eapply sum_digits; [| | | |exact E4|exact FX|change (frac_digits d6 <= f); lia].
      - exact (proj1 (proj1 (R6 3%nat))).
      - exact (proj1 (proj1 (R6 5%nat))).
      - exact (proj1 (proj2 (proj1 (R6 3%nat)))).
      - exact (proj1 (proj2 (proj1 (R6 5%nat)))). }
    cbn [target] in R4. set (st4 := write st6 4%nat d4) in *.
    destruct (ledger_step m small01 st4 (Copy 4 3) (x + r)%Q R4) as (d5 & E5 & V5 & R5).
    { cbn. intros; discriminate. }
    { cbn [meaning]. change (st4 4%nat) with d4. rewrite V4. reflexivity. }
    { lra. }
    { intros; discriminate. }
    cbn [target] in R5. set (st5 := write st4 3%nat d5) in *.
    assert (F5 : frac_digits (st5 3%nat) <= f) by (pose proof E5 as E5'; cbn [perform] in E5'; injection E5' as <-; exact F4).
    destruct (IH ltac:(intros M; specialize (D M); inversion D; assumption) st5 (x + r)%Q R5 V5 F5 ltac:(lra)) as (st' & O & R' & E & FF).
    exists st'. split; [|split; [exact R'|split; [|exact FF]]].
    + cbn [receipt flat_map app]. do 6 (eapply ok_cons; [eassumption|]). exact O.
    + rewrite E. cbn [receipt_total fold_right]. fold (receipt_total f l). fold v. fold r. ring.
Qed.

(** The total of an invoice with rounded lines is the sum of the rounded lines, exactly; it prints with at most
    [f] fractional digits, and differs from the unrounded total by at most half a unit of the last digit per line. *)
Theorem C110_rounded_lines : forall m f l, 0 <= f <= 27 ->
  Forall (fun pq => entry_ok (fst pq) /\ entry_ok (snd pq)) l -> (m = Debug -> Forall debug_line l) ->
  (invoice_size l + inject_Z (zlength l) < pow10 36)%Q ->
  exists st n, ok_history m (fun _ => zero) (receipt f l) st /\
    to_string m (st 3%nat) (-1) = Ret (numeral_bytes n) /\ canonical n /\ zlength (n_frac n) <= f /\
    (numeral_value n == receipt_total f l)%Q /\
    (Qabs (numeral_value n - invoice_total l) <= inject_Z (zlength l) * (pow10 (- f) * (1 # 2)))%Q.
Proof.
  intros m f l Hf F D B. destruct (receipt_states m f l Hf F D (fun _ => zero) 0%Q (ready_zero small01)) as (st & O & R & E & FF); [reflexivity|apply Hf|rewrite Qplus_0_l; exact B|]. rewrite Qplus_0_l in E.
  destruct (R 3%nat) as [(W & _ & _ & N) _]. destruct (C08_to_string_is_exact m (st 3%nat) W N) as (n & S & C & _ & FN & V).
  exists st, n. split; [exact O|]. split; [exact S|]. split; [exact C|]. split; [lia|]. assert (VV : (numeral_value n == receipt_total f l)%Q) by (rewrite V; exact E).
  split; [exact VV|]. rewrite VV. apply receipt_near.
Qed.
Print Assumptions C110_rounded_lines.

(** When the two numbers of every line together are written with at most [f] fractional digits, nothing is lost. *)
Lemma line_exact p q f : entry_ok p -> entry_ok q -> numeral_frac p + numeral_frac q <= f -> (round_at (numeral_value p * numeral_value q) f == numeral_value p * numeral_value q)%Q.
Proof.
  intros (Op & _ & Fp & _) (Oq & _ & Fq & _) L.
  destruct (bill_units p (numeral_frac p) Op ltac:(lia) ltac:(lia)) as (a & A). destruct (bill_units q (f - numeral_frac p) Oq ltac:(lia) ltac:(lia)) as (b & B).
  assert (E : (numeral_value p * numeral_value q == inject_Z (a * b) * pow10 (- f))%Q).
  { rewrite A, B, inject_Z_mult. replace (- f) with (- numeral_frac p + - (f - numeral_frac p)) by lia. rewrite pow10_add. ring. }
  transitivity (inject_Z (a * b) * pow10 (- f))%Q; [|symmetry; exact E]. apply round_at_near. rewrite E. setoid_replace (inject_Z (a * b) * pow10 (- f) - inject_Z (a * b) * pow10 (- f))%Q with 0%Q by ring.
  change (Qabs 0) with 0%Q. pose proof (pow10_pos (- f)) as P. set (u := pow10 (- f)) in *. clearbody u. lra.
Qed.
Theorem C110_short_lines_are_exact : forall m f l, 0 <= f <= 27 ->
  Forall (fun pq => entry_ok (fst pq) /\ entry_ok (snd pq)) l -> (m = Debug -> Forall debug_line l) ->
  Forall (fun pq => numeral_frac (fst pq) + numeral_frac (snd pq) <= f) l ->
  (invoice_size l + inject_Z (zlength l) < pow10 36)%Q ->
  exists st n, ok_history m (fun _ => zero) (receipt f l) st /\
    to_string m (st 3%nat) (-1) = Ret (numeral_bytes n) /\ canonical n /\ zlength (n_frac n) <= f /\
    (numeral_value n == invoice_total l)%Q.
Proof.
  intros m f l Hf F D L B. destruct (C110_rounded_lines m f l Hf F D B) as (st & n & O & S & C & N & V & _).
  exists st, n. split; [exact O|]. split; [exact S|]. split; [exact C|]. split; [exact N|]. rewrite V.
  clear - F L. induction F as [|[p q] l [P Q] F IH]; [reflexivity|]. inversion L as [|? ? L1 L2]; subst. cbn [fst snd] in *.
  cbn [receipt_total invoice_total fold_right]. fold (receipt_total f l). fold (invoice_total l). rewrite (line_exact p q f P Q L1), (IH L2). reflexivity.
Qed.
Print Assumptions C110_short_lines_are_exact.

(** Two lines of 0.125 rounded to cents come to 0.26, the exact total is 0.25: the
    difference is the bound. *)
Definition num0_125 : numeral := mknum None [0] true [1; 2; 5] None.
Definition num_one : numeral := mknum None [1] false [] None.
Example C110_example : let l := [(num0_125, num_one); (num0_125, num_one)] in
  numeral_bytes num0_125 = bytes "0.125" /\ Forall (fun pq => entry_ok (fst pq) /\ entry_ok (snd pq)) l /\ Forall debug_line l /\
  (invoice_size l + inject_Z (zlength l) < pow10 36)%Q /\ (receipt_total 2 l == 26 # 100)%Q /\ (invoice_total l == 25 # 100)%Q /\
  (Qabs (receipt_total 2 l - invoice_total l) == inject_Z (zlength l) * (pow10 (- 2) * (1 # 2)))%Q.
Proof.
  cbv zeta. repeat apply conj; try (vm_compute; reflexivity).
  - repeat constructor; cbn; try lia; try (vm_compute; discriminate); try congruence; auto.
  - repeat (apply Forall_cons; [right; right; right; vm_compute; discriminate|]). apply Forall_nil.
Qed.
(** 19.99 * 3 - 0.25 * 0.125 in five places. *)
Example C110_short_example : let l := [(num1999, num3); (num25, num0_125)] in
  Forall (fun pq => entry_ok (fst pq) /\ entry_ok (snd pq)) l /\ Forall debug_line l /\
  Forall (fun pq => numeral_frac (fst pq) + numeral_frac (snd pq) <= 5) l /\
  (invoice_size l + inject_Z (zlength l) < pow10 36)%Q /\ (receipt_total 5 l == 5993875 # 100000)%Q /\ (receipt_total 2 l == 5994 # 100)%Q.
Proof.
  cbv zeta. repeat apply conj; try (vm_compute; reflexivity).
  - repeat constructor; cbn; try lia; try (vm_compute; discriminate); try congruence; auto.
  - repeat (apply Forall_cons; [right; right; right; vm_compute; discriminate|]). apply Forall_nil.
  - repeat (apply Forall_cons; [vm_compute; discriminate|]). apply Forall_nil.
Qed.
