(** * Property C106: compounding. *)
From Coq Require Import ZArith List Bool String Lia QArith Qabs Qround Lqa.
From Verif Require Import Rust Model_Base Model_Cmp Model_Round Model_Decimal Model_Arith Model_Serde Spec Spec_Div Spec_History Spec_Compound Lib Digits Sign AddTo AddSubQ Basics Cmp QLib RoundQ MulQ MulLaws ParseMain ParseThms Conv History Laws Laws4
  Prop_AddSub Prop_Print Prop_Round Prop_Exact Prop_Everyday Prop_Ledger Tests Witness.
Import ListNotations.
Open Scope Z_scope.

(** A canonical numeral has as many integral digits as its number. *)
Lemma canonical_int_digits n k : canonical n -> 1 <= k -> (Qabs (numeral_value n) < inject_Z (10 ^ k))%Q -> zlength (n_int n) <= k.
Proof.
  intros ((FI & FF & _) & _ & EX & NE & HD & _) Hk B. destruct (Z.le_gt_cases (zlength (n_int n)) k) as [|G]; [assumption|]. exfalso.
  destruct (n_int n) as [|x l] eqn:EI; [congruence|]. cbn [hd] in HD. inversion FI as [|? ? Dx Dl]; subst.
  assert (L : zlength (x :: l) = zlength l + 1) by (unfold zlength; cbn [List.length]; lia). rewrite L in G.
  destruct (Z.eq_dec x 0) as [->|Nx]; [specialize (HD eq_refl); injection HD as ->; unfold zlength in G; cbn in G; lia|].
  pose proof (digits_value_bound l Dl) as BL. pose proof (digits_value_bound _ FF) as BF. unfold is_digit in Dx.
  set (F := zlength (n_frac n)) in *. assert (HF : 0 <= F) by (unfold F, zlength; lia).
  assert (P : 10 ^ k * 10 ^ F <= digits_value ((x :: l) ++ n_frac n)).
  { rewrite digits_value_app, digits_value_cons. fold F. assert (10 ^ k <= 10 ^ zlength l) by (apply Z.pow_le_mono_r; lia). assert (0 < 10 ^ F) by (apply Z.pow_pos_nonneg; lia).
    assert (0 < 10 ^ zlength l) by (apply Z.pow_pos_nonneg; unfold zlength; lia).
    set (A := 10 ^ zlength l) in *. set (B' := 10 ^ k) in *. set (C := 10 ^ F) in *. set (dl := digits_value l) in *. set (df := digits_value (n_frac n)) in *. clearbody A B' C dl df.
    assert (X : B' <= x * A + dl) by (clear - H H1 BL Nx Dx; nia). clear - X H0 BF. nia. }
  assert (V : (Qabs (numeral_value n) == inject_Z (digits_value ((x :: l) ++ n_frac n)) * pow10 (- F))%Q).
  { unfold numeral_value, numeral_exp. rewrite EX, EI, Qabs_Qmult. fold F. replace (0 - F) with (- F) by lia. rewrite (Qabs_pos (pow10 (- F))) by apply Qlt_le_weak, pow10_pos.
    assert (D : 0 <= digits_value ((x :: l) ++ n_frac n)) by (assert (0 <= 10 ^ k) by (apply Z.pow_nonneg; lia); assert (0 <= 10 ^ F) by (apply Z.pow_nonneg; lia); eapply Z.le_trans; [|exact P]; apply Z.mul_nonneg_nonneg; assumption).
    assert (D' : (0 <= inject_Z (digits_value ((x :: l) ++ n_frac n)))%Q) by (change 0%Q with (inject_Z 0); rewrite <- Zle_Qle; exact D).
    destruct (is_minus (n_sign n)); [rewrite Qabs_opp|]; rewrite Qabs_pos by exact D'; reflexivity. }
  rewrite V in B. assert (Z1 : (inject_Z (10 ^ k) * inject_Z (10 ^ F) <= inject_Z (digits_value ((x :: l) ++ n_frac n)))%Q) by (rewrite <- inject_Z_mult, <- Zle_Qle; exact P).
  assert (E1 : (inject_Z (10 ^ F) * pow10 (- F) == 1)%Q) by (rewrite <- (pow10_nonneg F HF), <- pow10_add; replace (F + - F) with 0 by lia; reflexivity).
  pose proof (pow10_pos (- F)) as PP. set (u := inject_Z (10 ^ k)) in *. set (v := inject_Z (10 ^ F)) in *. set (w := pow10 (- F)) in *. set (t := inject_Z (digits_value _)) in *. clearbody u v w t.
  assert (X : (u * v * w <= t * w)%Q) by (apply Qmult_le_compat_r; [exact Z1|apply Qlt_le_weak, PP]). assert (Y : (u * v * w == u)%Q) by (rewrite <- Qmult_assoc, E1; ring). lra.
Qed.

Definition two_vars (a b : fd) : state := fun i => match i with 0%nat => a | 1%nat => b | _ => zero end.
Lemma one_period m rate f s d0 q : regular rate -> iu rate <= 2 -> fu rate <= 1 -> 0 <= f <= 9 ->
  from_str m s = Ret (Ok d0) -> regular d0 -> 1 <= iu d0 <= 4 -> fu d0 <= 1 -> (value d0 == q)%Q -> (Qabs (round_at (q * value rate) f) < pow10 36)%Q ->
  exists n, period m rate f s = Ret (Ok (numeral_bytes n)) /\ canonical n /\ zlength (n_frac n) = f /\ (numeral_value n == round_at (q * value rate) f)%Q.
Proof.
  intros RR IR FR Hf E0 R0 [L0 I0] F0 V0 B. unfold period. rewrite E0. rewrite bind_Ret; cbv beta iota zeta.
  pose proof (wf_counts _ (proj1 R0)) as C0. pose proof (wf_counts _ (proj1 RR)) as CR.
  assert (PF : product_fits d0 rate /\ int_digits d0 + int_digits rate <= 54 /\ frac_digits d0 + frac_digits rate <= 18 /\ product_lost_units d0 rate <= 1 /\ (product_lost_units d0 rate = 1 -> 1 <= fu d0)).
  { pose proof (units_up (int_digits d0)). pose proof (units_up (int_digits rate)). pose proof (units_up (frac_digits d0)). pose proof (units_up (frac_digits rate)).
    unfold product_fits, product_lost_units, product_frac_units, product_int_units, iu, fu in *.
    set (x := int_digits d0) in *. set (y := int_digits rate) in *. set (u := frac_digits d0) in *. set (v := frac_digits rate) in *. clearbody x y u v.
    assert (A : units_for (x + y) <= units_for x + units_for y) by (clear; unfold units_for; Z.to_euclidean_division_equations; lia).
    assert (B' : units_for u + units_for v - 1 <= units_for (u + v) <= units_for u + units_for v) by (clear; unfold units_for; Z.to_euclidean_division_equations; lia).
    assert (C : units_for (u + v) = units_for u + units_for v - 1 -> 1 <= units_for u) by (clear - C0 CR; unfold units_for; Z.to_euclidean_division_equations; lia).
    lia. }
  destruct PF as (PF & PI & PR & LO & L1).
  assert (MU : exists p, mul_to m d0 rate zero = Ret (Ok tt, p) /\ iu p <= 6).
  { destruct (C73_every_product m d0 rate zero R0 RR) as [(_ & E)|(Na & Nb & [(N & _)|[(_ & L & _)|(_ & _ & d & E & _ & _ & _ & ID & _)]])].
    - exists zero. split; [exact E|]. vm_compute. discriminate.
    - exfalso. apply N. split; [lia|]. split; [lia|]. right. left. lia.
    - exfalso. lia.
    - exists d. split; [exact E|]. unfold iu. rewrite ID. apply units_one. unfold product_int_units. pose proof (units_one (int_digits d0 + int_digits rate) 6 ltac:(lia)) as U6. assert (U0 : 0 <= units_for (int_digits d0 + int_digits rate)) by (clear - C0 CR; unfold units_for; Z.to_euclidean_division_equations; lia). clear - U6 U0. lia. }
  destruct MU as (p & EP & IP). rewrite EP. rewrite bind_Ret; cbv beta iota zeta.
  set (st := two_vars d0 rate). assert (RS : forall i, regular (st i)) by (intros [|[|i]]; cbn; auto using regular_zero).
  assert (PP : perform m st (Mul 0 1 2) = Ret (Ok tt, p)) by exact EP.
  pose proof (exact_step m st (Mul 0 1 2) (Ok tt) p RS PF PP) as VP. cbn [meaning] in VP. change (value (st 0%nat)) with (value d0) in VP. change (value (st 1%nat)) with (value rate) in VP.
  pose proof (careful_step m st (Mul 0 1 2) (Ok tt) p RS (exact_careful st (Mul 0 1 2) PF) PP) as (Wp & Cp & Tp & Np).
  assert (VQ : (round_at (value p) f == round_at (q * value rate) f)%Q) by (apply round_at_comp; rewrite VP, V0; reflexivity).
  pose proof (units_one f 1 ltac:(lia)) as UF.
  destruct (proj2 (C38_round_to_returns_iff_room m p zero f Wp ltac:(lia) (or_intror Np))) as (r & ER).
  { split; [lia|]. rewrite VQ. eapply Qlt_le_trans; [exact B|]. apply pow10_le. lia. }
  rewrite ER. rewrite bind_Ret; cbv beta iota zeta. destruct (round_to_spec_ret m p zero f r Wp ltac:(lia) (or_intror Np) ER) as (Wr & Vr & Fr & _ & Nr & _).
  destruct (C08_to_string_is_exact m r Wr Nr) as (n & Tn & Cn & _ & Ln & Vn). rewrite Tn. rewrite bind_Ret; cbv beta iota zeta.
  exists n. split; [reflexivity|]. split; [exact Cn|]. split; [rewrite Ln; exact Fr|]. rewrite Vn, Vr. exact VQ.
Qed.

Lemma pow36 : (pow10 36 == inject_Z (10 ^ 36))%Q.
Proof. vm_compute. reflexivity. Qed.
Lemma read_back m n f : canonical n -> zlength (n_frac n) <= f -> f <= 9 -> (Qabs (numeral_value n) < pow10 36)%Q ->
  exists d, from_str m (numeral_bytes n) = Ret (Ok d) /\ regular d /\ 1 <= iu d <= 4 /\ fu d <= 1 /\ (value d == numeral_value n)%Q.
Proof.
  intros C F Hf B. rewrite pow36 in B. pose proof (canonical_int_digits n 36 C ltac:(lia) B) as LI.
  destruct (short_parse m n 36 9) as (d & E & R & V & _ & I & G); [|lia|].
  - destruct C as (OK & _ & EX & _). split; [exact OK|]. split; [exact EX|]. split; [exact LI|lia].
  - exists d. split; [exact E|]. split; [exact R|].
    assert (1 <= zlength (n_int n)) by (destruct C as (_ & _ & _ & NE & _); destruct (n_int n); [congruence|unfold zlength; cbn [List.length]; lia]).
    assert (0 <= zlength (n_frac n)) by (unfold zlength; lia). unfold iu, fu. rewrite I, G.
    split; [split; [unfold units_for; apply Z.div_le_lower_bound; lia|apply units_one; lia]|]. split; [apply units_one; lia|exact V].
Qed.

(** ** C106 *)
Theorem C106_compounding : forall m rate f k n, regular rate -> iu rate <= 2 -> fu rate <= 1 -> 0 <= f <= 9 ->
  canonical n -> zlength (n_frac n) <= 9 ->
  (forall j, (j <= k)%nat -> (Qabs (growth (value rate) f j (numeral_value n)) < pow10 36)%Q) ->
  exists n', compound m rate f k (numeral_bytes n) = Ret (Ok (numeral_bytes n')) /\ canonical n' /\
    (numeral_value n' == growth (value rate) f k (numeral_value n))%Q /\ ((0 < k)%nat -> zlength (n_frac n') = f).
Proof.
  intros m rate f k. induction k as [|k IH]; intros n RR IR FR Hf C F B.
  - exists n. split; [reflexivity|]. split; [exact C|]. split; [reflexivity|]. lia.
  - destruct (read_back m n 9 C F ltac:(lia) (B 0%nat ltac:(lia))) as (d & E & R & I & G & V).
    destruct (one_period m rate f (numeral_bytes n) d (numeral_value n) RR IR FR Hf E R I G V (B 1%nat ltac:(lia))) as (n1 & EP & C1 & F1 & V1).
    assert (GC : forall j x y, (x == y)%Q -> (growth (value rate) f j x == growth (value rate) f j y)%Q).
    { clear. induction j as [|j IH]; intros x y E; [exact E|]. cbn [growth]. apply IH. apply round_at_comp. rewrite E. reflexivity. }
    destruct (IH n1 RR IR FR Hf C1 ltac:(lia)) as (n' & EC & C' & V' & F').
    + intros j Hj. rewrite (GC j _ _ V1). exact (B (S j) ltac:(lia)).
    + exists n'. split; [cbn [compound]; rewrite EP, bind_Ret; cbv beta iota; exact EC|]. split; [exact C'|]. split; [rewrite V'; cbn [growth]; apply GC; exact V1|].
      intros _. destruct k as [|k]; [|apply F'; lia]. cbn [compound] in EC. injection EC as EC.
      assert (n' = n1) as ->; [|exact F1]. apply Laws4.canonical_bytes; [exact C'|exact C1|symmetry; exact EC].
Qed.
Print Assumptions C106_compounding.

(** Kept as a decimal, the balance declares nine more integral digits after every period,
    whatever its number: at most nine periods are possible, eight if it has fractional digits. *)
Lemma round_keeps_units m a res f d : wf a -> 0 <= f <= 127 -> round_to m a res f = Ret d -> int_digits a <= 9 * iu d /\ (f < frac_digits a -> int_digits d = 9 * iu d) /\ (frac_digits a <= f -> int_digits d = int_digits a).
Proof.
  intros Ha Hf H. pose proof (units_up (int_digits a)) as UA. change (units_for (int_digits a)) with (iu a) in UA. destruct (Z.lt_ge_cases f (frac_digits a)) as [L|L].
  - destruct (Round.round_to_frac m a res f Ha ltac:(lia)) as [(d' & E & _ & _ & _ & _ & ED & [(X & _)|(X & _)] & _)|(E & _)]; rewrite E in H; [| |discriminate H]; injection H as <-; lia.
  - destruct (RoundTo.round_to_grow m a res f Ha ltac:(lia)) as [(_ & d' & E & _ & EI & _)|(_ & p & E)]; rewrite E in H; [|discriminate H]. injection H as <-.
    assert (ED : int_digits d' = int_digits a) by (unfold int_digits; rewrite EI; reflexivity). unfold iu at 1. rewrite ED. pose proof (units_up (int_digits a)). lia.
Qed.
Lemma zero_stays_zero m rate f k : forall b r, regular rate -> regular b -> 0 <= f <= 127 -> (value b == 0)%Q -> compound_in_place m rate f k b = Ret (Ok r) -> (value r == 0)%Q.
Proof.
  induction k as [|k IH]; intros b r RR RB Hf Z0 H; [injection H as <-; exact Z0|]. cbn [compound_in_place] in H.
  destruct (C73_every_product m b rate zero RB RR) as [(_ & E)|(N & _)]; [|contradiction]. rewrite E, bind_Ret in H. cbv beta iota in H. apply bind_inv in H. destruct H as (r1 & E1 & H).
  assert (Wz : wf zero) by apply wf_zero. destruct (round_to_spec_ret m zero zero f r1 Wz Hf (or_intror (proj2 (proj2 (proj2 regular_zero)))) E1) as (W & V & _ & _ & N & CC & TT).
  apply (IH r1 r RR); [rg; [exact W|apply CC; hyps|apply TT; hyps|exact N]|exact Hf| |exact H]. rewrite V. unfold round_at. rewrite (round_away_comp (value zero * pow10 f) 0) by (change (value zero) with (0 # 1)%Q; ring). change (round_away 0) with 0. ring.
Qed.
Lemma pile m rate f k : forall b r j, regular rate -> 1 <= int_digits rate -> regular b -> 0 <= f <= 127 -> 0 <= j -> 9 * j <= int_digits b ->
  compound_in_place m rate f k b = Ret (Ok r) -> ~ (value r == 0)%Q -> wf r /\ 9 * (j + Z.of_nat k) <= int_digits r /\ ((0 < k)%nat -> frac_digits r = f).
Proof.
  induction k as [|k IH]; intros b r j RR LR RB Hf Hj LB H NZ; [injection H as <-; split; [apply RB|]; split; [lia|lia]|].
  pose proof H as H0. cbn [compound_in_place] in H.
  assert (NB : ~ (value b == 0)%Q) by (intros X; apply NZ; exact (zero_stays_zero m rate f (S k) b r RR RB Hf X H0)).
  apply bind_inv in H. destruct H as ([rs p] & E & H). cbv beta iota in H.
  set (st := two_vars b rate). assert (RS : forall i, regular (st i)) by (intros [|[|i]]; cbn; auto using regular_zero).
  assert (Rp : regular p) by (refine (careful_step m st (Mul 0 1 2) rs p RS _ E); exact Logic.I).
  destruct rs as [[]|e]; [|discriminate H]. apply bind_inv in H. destruct H as (r1 & E1 & H). pose proof Rp as (Wp & Cp & Tp & Np).
  destruct (round_to_spec_ret m p zero f r1 Wp Hf (or_intror Np) E1) as (W & V & FR & _ & N & CC & TT).
  assert (R1 : regular r1) by (rg; [exact W|apply CC, Cp|apply TT, Tp|exact N]).
  assert (IP : int_digits p = 9 * iu p /\ 9 * (j + 1) <= int_digits p).
  { destruct (C73_every_product m b rate zero RB RR) as [([X|X] & E')|(_ & NR & [(_ & q & E')|[(_ & _ & E')|(_ & _ & d & E' & _ & _ & _ & ID & _)]])]; rewrite E' in E; try discriminate E; [contradiction| |].
    - exfalso. injection E as <-. apply NZ. apply (zero_stays_zero m rate f k r1 r RR R1 Hf); [|exact H]. rewrite V. unfold round_at. rewrite (round_away_comp (value zero * pow10 f) 0) by (change (value zero) with (0 # 1)%Q; ring). change (round_away 0) with 0. ring.
    - injection E as <-. unfold iu. rewrite ID. unfold product_int_units. set (u := int_digits b + int_digits rate) in *. assert (U : 9 * j + 1 <= u) by lia. clearbody u. clear - U Hj. unfold units_for. Z.to_euclidean_division_equations. lia. }
  destruct (round_keeps_units m p zero f r1 Wp Hf E1) as (K1 & K2 & K3).
  assert (L1 : 9 * (j + 1) <= int_digits r1) by (destruct (Z.lt_ge_cases f (frac_digits p)) as [X|X]; [specialize (K2 X)|specialize (K3 X)]; lia).
  destruct (IH r1 r (j + 1) RR LR R1 Hf ltac:(lia) L1 H NZ) as (Wr & Lr & Fr). split; [exact Wr|]. split; [lia|]. intros _. destruct k as [|k]; [injection H as <-; exact FR|apply Fr; lia].
Qed.
Theorem C106_declared_digits_pile_up : forall m rate f k b r, regular rate -> 1 <= int_digits rate -> regular b -> 0 <= f <= 127 ->
  compound_in_place m rate f k b = Ret (Ok r) -> ~ (value r == 0)%Q ->
  9 * Z.of_nat k <= int_digits r /\ (k <= 9)%nat /\ (0 < f -> (k <= 8)%nat).
Proof.
  intros m rate f k b r RR LR RB Hf H NZ. destruct (pile m rate f k b r 0 RR LR RB Hf ltac:(lia)) as (W & L & F); [|exact H|exact NZ|].
  { pose proof (wf_counts b (proj1 RB)). lia. }
  pose proof (wf_counts r W) as C. rewrite Z.add_0_l in L. assert (U : 9 * Z.of_nat k <= 9 * iu r) by (pose proof (units_up (int_digits r)); unfold iu; lia).
  split; [exact L|]. split; [lia|]. intros Pf. destruct k as [|k]; [lia|]. specialize (F ltac:(lia)).
  assert (1 <= fu r) by (unfold fu; rewrite F; unfold units_for; apply Z.div_le_lower_bound; lia). lia.
Qed.
Print Assumptions C106_declared_digits_pile_up.
(** Eight years at 3.75 % are fine, the ninth panics although the balance is below 140; so does 1 * 1. *)
Example C106_in_place_panics : forall m, 
  (exists r, compound_in_place m (dec "1.0375") 2 8 (dec "100") = Ret (Ok r) /\ to_string m r (-1) = Ret (bytes "134.26") /\ int_digits r = 72) /\
  compound_in_place m (dec "1.0375") 2 9 (dec "100") = Panic PIndex /\ compound_in_place m (dec "1") 2 9 (dec "1") = Panic PIndex.
Proof.
  intros [|].
  - split; [eexists; split; [vm_compute; reflexivity|split; vm_compute; reflexivity]|split; vm_compute; reflexivity].
  - split; [eexists; split; [vm_compute; reflexivity|split; vm_compute; reflexivity]|split; vm_compute; reflexivity].
Qed.

(** Five years at 1.0375 a year, in cents; and 1 * 1 written and read back. *)
Example C106_example : let n := mknum None [1; 0; 0] false [] None in let rate := dec "1.0375" in
  canonical n /\ regular rate /\ iu rate <= 2 /\ fu rate <= 1 /\
  (forall j, (j <= 5)%nat -> (Qabs (growth (value rate) 2 j (numeral_value n)) < pow10 36)%Q) /\
  (forall m, compound m rate 2 5 (numeral_bytes n) = Ret (Ok (bytes "120.22")) /\ compound m (dec "1") 2 30 (bytes "1") = Ret (Ok (bytes "1.00"))).
Proof.
  cbv zeta. split; [|split; [|split; [|split; [|split]]]].
  - repeat split; cbn; try discriminate; try congruence; auto; repeat constructor; lia.
  - rg; hyps.
  - vm_compute. discriminate.
  - vm_compute. discriminate.
  - intros j Hj. do 6 (destruct j as [|j]; [vm_compute; reflexivity|]). lia.
  - intros [|]; split; vm_compute; reflexivity.
Qed.
