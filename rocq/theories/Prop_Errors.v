(** * Property C101: errors say what went wrong. *)
From Coq Require Import ZArith List Bool String QArith Qabs Lia.
From Verif Require Import Rust Model_Base Model_Error Model_Cmp Model_Round Model_Decimal Model_Arith Model_Serde Spec Spec_Rem Lib Basics Agree Agree2 DivBasics Tests Witness.
From Verif Require Import Prop_Parse Prop_Mul Prop_Build Prop_Conv Prop_Exact.
Import ListNotations.
Open Scope Z_scope.

(** ** The shape of what a computation returns *)
Definition only {A B} (P : result A -> B -> Prop) (o : outcome (result A * B)) : Prop := forall r d, o = Ret (r, d) -> P r d.

Lemma only_bind A B C (P : result A -> B -> Prop) (o : outcome C) k : (forall c, only P (k c)) -> only P (bind o k).
Proof. intros H r d E. apply bind_inv in E. destruct E as (c & _ & E). exact (H c r d E). Qed.
Lemma only_ret A B (P : result A -> B -> Prop) r d : P r d -> only P (Ret (r, d)).
Proof. intros H r' d' E. injection E as <- <-. exact H. Qed.
Lemma only_panic A B (P : result A -> B -> Prop) p : only P (Panic p).
Proof. intros r d E. discriminate E. Qed.
Lemma only_sign (P : result unit -> fd -> Prop) o c : (forall d, P (Ok tt) d) -> only P o -> only P (bind o (fun o => finish_sign o c)).
Proof.
  intros K H r d E. apply bind_inv in E. destruct E as ([r' d'] & E1 & E). unfold finish_sign in E. destruct r' as [|e].
  - injection E as <- _. apply K.
  - injection E as <- <-. exact (H _ _ E1).
Qed.
Ltac shape := repeat match goal with
  | |- only _ (bind _ _) => apply only_bind; intros
  | |- only _ (Panic _) => apply only_panic
  | |- only _ (match ?x with _ => _ end) => destruct x
  | |- only _ (let _ := _ in _) => cbv zeta
  end.

(** The errors each function may return. *)
Definition no_error {A B} (r : result A) (d : B) : Prop := exists a, r = Ok a.
Definition error_in (es : list error) (P : fd -> Prop) (r : result unit) (d : fd) : Prop := r = Ok tt \/ exists e, In e es /\ r = Err e /\ P d.

Lemma add_abs_only m a b res : only no_error (add_abs m a b res).
Proof. unfold add_abs. cbv zeta. shape; apply only_ret; eexists; reflexivity. Qed.
Lemma sub_abs_only m a b res : only no_error (sub_abs m a b res).
Proof. unfold sub_abs. cbv zeta. shape; apply only_ret; eexists; reflexivity. Qed.
Lemma add_to_only m a b res : only no_error (add_to m a b res).
Proof.
  unfold add_to. destruct (is_zero a); [apply only_ret; eexists; reflexivity|]. destruct (is_zero b); [apply only_ret; eexists; reflexivity|]. cbv zeta.
  destruct (eqb _ _); intros r d E; apply bind_inv in E; destruct E as ([r' d'] & E1 & E).
  - destruct (add_abs_only _ _ _ _ _ _ E1) as (x & ->). cbn in E. injection E as <- _. eexists; reflexivity.
  - destruct (sub_abs_only _ _ _ _ _ _ E1) as (x & ->). cbn in E. injection E as <- _. eexists; reflexivity.
Qed.
Lemma sub_to_only m a b res : only no_error (sub_to m a b res).
Proof.
  unfold sub_to. destruct (is_zero a); [apply only_ret; eexists; reflexivity|]. destruct (is_zero b); [apply only_ret; eexists; reflexivity|]. cbv zeta.
  destruct (negb _); intros r d E; apply bind_inv in E; destruct E as ([r' d'] & E1 & E).
  - destruct (add_abs_only _ _ _ _ _ _ E1) as (x & ->). cbn in E. injection E as <- _. eexists; reflexivity.
  - destruct (sub_abs_only _ _ _ _ _ _ E1) as (x & ->). cbn in E. injection E as <- _. eexists; reflexivity.
Qed.
Lemma mul_rows_only m rvs : forall lvs i s r, only (fun rs _ => rs = Ok tt \/ rs = Err Overflow) (mul_rows m rvs lvs i s r).
Proof.
  induction rvs as [|rv rvs IH]; intros lvs i s r; cbn [mul_rows]; [apply only_ret; auto|].
  apply only_bind. intros [[r1 c] ri]. apply only_bind. intros _. destruct (_ <? _); [apply only_bind; intros r2; apply IH|].
  destruct (_ >? _); [apply only_ret; auto|apply IH].
Qed.
Lemma mul_to_only m a b res : only (error_in [Overflow] (fun _ => True)) (mul_to m a b res).
Proof.
  unfold mul_to. destruct (_ || _); [apply only_ret; left; reflexivity|]. cbv zeta. apply only_sign; [left; reflexivity|].
  unfold mul_abs. cbv zeta. do 4 (apply only_bind; intros). destruct (_ >? _); [apply only_ret; right; eexists; cbn; eauto|].
  do 7 (apply only_bind; intros). intros rs d E. apply bind_inv in E. destruct E as ([r' l] & E1 & E).
  destruct (mul_rows_only _ _ _ _ _ _ _ _ E1) as [-> | ->]; injection E as <- <-; [left; reflexivity|right; eexists; cbn; eauto].
Qed.
Lemma rem_finish_only m r nz u f : only no_error (rem_finish m r nz u f).
Proof. unfold rem_finish. cbv zeta. shape; apply only_ret; eexists; reflexivity. Qed.
Ltac okay := first [apply only_ret; left; reflexivity|apply only_ret; right; eexists; cbn; split; [|split; [reflexivity|]]; eauto; reflexivity].
Lemma div_to_only m a b res f : only (error_in [DivisionByZero; Overflow] (fun d => d = zero)) (div_to m a b res f).
Proof.
  unfold div_to. cbv zeta. apply only_sign; [left; reflexivity|]. unfold div_abs. cbv zeta.
  do 5 (apply only_bind; intros). destruct (_ <? _); [okay|]. apply only_bind; intros. destruct (_ <? _); [okay|].
  do 7 (apply only_bind; intros). apply only_bind. intros [[[[? ?] ?] ?]|]; [|okay]. shape; okay.
Qed.
Lemma rem_to_only m a b res : only (error_in [DivisionByZero] (fun d => d = zero)) (rem_to m a b res).
Proof.
  assert (RF : forall r nz u f, only (error_in [DivisionByZero] (fun d => d = zero)) (rem_finish m r nz u f)).
  { intros r nz u f rs d E. destruct (rem_finish_only _ _ _ _ _ _ _ E) as ([] & ->). left. reflexivity. }
  unfold rem_to. cbv zeta. apply only_sign; [left; reflexivity|]. unfold rem_abs. cbv zeta.
  do 5 (apply only_bind; intros). destruct (_ <? _); [okay|]. apply only_bind; intros. destruct (_ <? _); [okay|].
  apply only_bind; intros. destruct c5; [okay| |]; shape; try okay; apply RF.
Qed.

(** ** C101 *)
(** Whatever the operands (well formed or not) and the build, each function
    only returns the errors listed for it: sums and differences none at all;
    and a failed quotient or remainder leaves the plain zero behind. *)
Theorem C101_sums_return_no_error : forall m a b res rs d, add_to m a b res = Ret (rs, d) \/ sub_to m a b res = Ret (rs, d) -> rs = Ok tt.
Proof. intros m a b res rs d [E|E]; [destruct (add_to_only _ _ _ _ _ _ E) as ([] & H)|destruct (sub_to_only _ _ _ _ _ _ E) as ([] & H)]; exact H. Qed.
Print Assumptions C101_sums_return_no_error.
Theorem C101_errors_of_each_function : forall m a b res incr bs reset e d,
  (mul_to m a b res = Ret (Err e, d) -> e = Overflow) /\
  (div_to m a b res incr = Ret (Err e, d) -> (e = DivisionByZero \/ e = Overflow) /\ d = zero) /\
  (rem_to m a b res = Ret (Err e, d) -> e = DivisionByZero /\ d = zero) /\
  (from_bytes_str m a bs reset = Ret (Err e, d) -> e = ConversionSyntax) /\
  (from_str m bs = Ret (Err e) -> e = ConversionSyntax) /\
  (as_i64 m a = Ret (Err e) \/ as_u64 m a = Ret (Err e) -> e = ExceedsConversionTargetRange).
Proof.
  intros m a b res incr bs reset e d. repeat split.
  - intros E. destruct (mul_to_only _ _ _ _ _ _ E) as [H|(x & [<-|[]] & H & _)]; [discriminate H|]. injection H as ->. reflexivity.
  - destruct (div_to_only _ _ _ _ _ _ _ H) as [X|(x & I & X & _)]; [discriminate X|]. injection X as ->. destruct I as [<-|[<-|[]]]; auto.
  - destruct (div_to_only _ _ _ _ _ _ _ H) as [X|(x & I & X & D)]; [discriminate X|]. exact D.
  - destruct (rem_to_only _ _ _ _ _ _ H) as [X|(x & [<-|[]] & X & D)]; [discriminate X|]. injection X as ->. reflexivity.
  - destruct (rem_to_only _ _ _ _ _ _ H) as [X|(x & I & X & D)]; [discriminate X|]. exact D.
  - intros E. exact (proj1 (C06_failed_parse _ _ _ _ _ _ E)).
  - unfold from_str. intros E. apply bind_inv in E. destruct E as ([r x] & E1 & E). destruct r as [|e']; [discriminate E|]. injection E as ->.
    exact (proj1 (C06_failed_parse _ _ _ _ _ _ E1)).
  - intros [E|E].
    + unfold as_i64 in E. apply bind_inv in E. destruct E as (b1 & _ & E). apply bind_inv in E. destruct E as (b2 & _ & E). destruct b2; [injection E as <-; reflexivity|].
      apply bind_inv in E. destruct E as (fu & _ & E). destruct (fu >? 0); repeat (apply bind_inv in E; destruct E as (? & _ & E)); discriminate E.
    + unfold as_u64 in E. apply bind_inv in E. destruct E as (b1 & _ & E). destruct b1; [injection E as <-; reflexivity|].
      apply bind_inv in E. destruct E as (fu & _ & E). destruct (fu >? 0); repeat (apply bind_inv in E; destruct E as (? & _ & E)); discriminate E.
Qed.
Print Assumptions C101_errors_of_each_function.

(** The error of a quotient or of a remainder tells the cause: the divisor is
    zero, or else the quotient has more than 81 integral digits. *)
Theorem C101_errors_tell_the_cause : forall m a b res incr e d, wf a -> wf b ->
  (div_to m a b res incr = Ret (Err e, d) ->
     (e = DivisionByZero <-> (value b == 0)%Q) /\ (e = Overflow <-> ~ (value b == 0)%Q /\ (pow10 81 <= Qabs (value a / value b))%Q)) /\
  (rem_to m a b res = Ret (Err e, d) -> e = DivisionByZero /\ (value b == 0)%Q).
Proof.
  intros m a b res incr e d Wa Wb. split; intros E.
  - destruct (Qeq_dec (value b) 0) as [V|V].
    + rewrite (proj1 (C33_zero_divisors_are_reported m a b res incr Wa Wb V)) in E. injection E as <- <-. split; [tauto|]. split; [discriminate|]. intros [X _]. exfalso. exact (X V).
    + destruct (C70_every_quotient m a b res incr _ d Wa Wb V E) as (O & I & _). destruct O as [O|O]; [discriminate O|]. injection O as ->. split.
      * split; [discriminate|]. intros X. exfalso. exact (V X).
      * split; [|reflexivity]. intros _. split; [exact V|]. apply I. reflexivity.
  - pose proof (proj1 (proj1 (proj2 (proj2 (C101_errors_of_each_function m a b res incr nil true e d))) E)) as ->. split; [reflexivity|].
    exact (C33_only_zero_divisors_are_reported m a b res incr d Wb (or_intror E)).
Qed.
Print Assumptions C101_errors_tell_the_cause.

(** The texts are distinct, not empty, and printable ASCII. *)
Theorem C101_messages : forall e1 e2, (error_message e1 = error_message e2 -> e1 = e2) /\ error_message e1 <> [] /\
  Forall (fun c => 32 <= c <= 126) (error_message e1).
Proof.
  intros e1 e2. split; [destruct e1, e2; intros H; try reflexivity; vm_compute in H; discriminate H|]. split; [destruct e1; discriminate|].
  destruct e1; vm_compute; repeat constructor; discriminate.
Qed.
Print Assumptions C101_messages.
Example C101_example : let a := dec "12.5" in let b := dec "-0.0" in let t := dec "0.000000000000000000000000000001" in
  let big := dec "1000000000000000000000000000000000000000000000000000000000000" in
  wf a /\ wf b /\ wf big /\ wf t /\ div_to Debug a b a 4 = Ret (Err DivisionByZero, zero) /\ rem_to Release a b a = Ret (Err DivisionByZero, zero) /\
  div_to Release big t a 4 = Ret (Err Overflow, zero) /\ as_u64 Debug (dec "-1") = Ret (Err ExceedsConversionTargetRange) /\
  as_i64 Debug big = Ret (Err ExceedsConversionTargetRange) /\ from_str Debug (bytes "1..2") = Ret (Err ConversionSyntax) /\
  mul_to Debug big (dec "1000000000000000000000000000000") a = Ret (Err Overflow, zero) /\
  (exists s, add_to Debug a t big = Ret (Ok tt, s) /\ (value s == value a + value t)%Q).
Proof. hyps. eexists. split; [vm_compute; reflexivity|]. vm_compute. reflexivity. Qed.
