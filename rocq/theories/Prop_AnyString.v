(** * Properties: what any string whatever can do (C90). *)
From Coq Require Import ZArith List Bool String Lia QArith Qabs.
From Verif Require Import Rust Tables Model_Base Model_Cmp Model_Round Model_Decimal Model_Arith Model_Serde Spec Spec_Div Spec_History Lib QLib Sign Basics Scan ParseAny Sound
  Prop_Compare Prop_AddSub Prop_Print Prop_Mul Prop_Parse Prop_Limits Tests Witness.
Import ListNotations.
Open Scope Z_scope.

(** C90: no string, however long, and whatever the bytes, makes a malformed decimal. *)
Theorem C90_no_string_makes_a_malformed_decimal : forall m self bs reset rs d, wf self -> from_bytes_str m self bs reset = Ret (rs, d) -> wf d.
Proof. exact parse_any. Qed.
Print Assumptions C90_no_string_makes_a_malformed_decimal.

(** So what has been read is fit for every call: it can be compared, printed and converted, and its sums and differences are exact. *)
Theorem C90_what_is_read_is_fit : forall m s t a b, from_str m s = Ret (Ok a) -> from_str m t = Ret (Ok b) ->
  wf a /\ wf b /\
  (forall f, exists x, to_string m a f = Ret x /\ Forall (fun c => c = 45 \/ c = 46 \/ 48 <= c <= 57) x) /\
  (exists c, cmp m a b = Ret c /\ (~ (value a == value b)%Q -> c = Qcompare (value a) (value b))) /\
  (forall res rs d, add_to m a b res = Ret (rs, d) -> rs = Ok tt /\ wf d /\ (value d == value a + value b)%Q) /\
  (forall res rs d, sub_to m a b res = Ret (rs, d) -> rs = Ok tt /\ wf d /\ (value d == value a - value b)%Q).
Proof.
  intros m s t a b Ha Hb.
  assert (F : forall u x, from_str m u = Ret (Ok x) -> wf x).
  { intros u x H. unfold from_str in H. apply bind_inv in H. destruct H as ([r d] & E & H). destruct r as [[]|e]; [|discriminate H]. assert (d = x) as <- by congruence. exact (parse_any m zero u false _ d wf_zero E). }
  pose proof (F s a Ha) as Wa. pose proof (F t b Hb) as Wb. split; [exact Wa|]. split; [exact Wb|]. split; [|split; [|split]].
  - intros f. destruct (C12_formatting_appends_ascii m a [] f Wa) as (x & E & _ & A). exists x. auto.
  - eexists. split; [apply (C13_comparison_is_numeric m a b Wa Wb)|]. intros N. destruct (Qcompare (value a) (value b)) eqn:E; try reflexivity. apply Qeq_alt in E. contradiction.
  - intros res rs d H. destruct (C22_addition_is_exact m a b res rs d Wa Wb H) as (E & W & V & _). auto.
  - intros res rs d H. destruct (C23_subtraction_is_exact m a b res rs d Wa Wb H) as (E & W & V & _). auto.
Qed.
Print Assumptions C90_what_is_read_is_fit.

(** Histories of both builds: every string, every machine integer, every rounding position but those that wrap to -8 ... -1
    (and the lowest one in a release build), every call of addition,
    subtraction, multiplication and remainder; division as in C44. *)
Definition any_call (m : build) (st : state) (c : call) : Prop :=
  match c with
  | RoundTo _ _ f | Round _ f => -9223372036854775808 <= f <= 9223372036854775807 /\ (127 < f -> wrapped f < -8 \/ 0 <= wrapped f) /\ (m = Debug \/ -9223372036854775808 < f)
  | _ => sound_call m st c
  end.
Theorem C90_histories : forall m st cs st', (forall i, wf (st i)) -> history (any_call m) m st cs st' -> forall i, wf (st' i).
Proof.
  intros m st cs st' R H. induction H as [st1|st1 c cs rs d st2 A E H IH]; [exact R|]. apply IH. intros i. unfold write. destruct (Nat.eqb i (target c)); [|apply R]. clear IH H.
  destruct c; try (eapply sound_step; [exact R|exact A|exact E]); cbn [perform any_call] in *; apply bind_inv in E; destruct E as (d' & E & E'); injection E' as <- <-; destruct A as (A1 & A2 & A3).
  - eapply round_every; [apply R|exact A3| |exact A2|right; eexists; exact E]. lia.
  - eapply round_every; [apply R|exact A3| |exact A2|left; exact E]. lia.
Qed.
Print Assumptions C90_histories.

(** A string of 321 digits that is read (as 65 of them) in a release build, and
    256 digits, read as zero. *)
Example C90_example : exists a b, from_str Release (bytes "-" ++ repeat 55 321)%list = Ret (Ok a) /\ from_str Release (repeat 55 256) = Ret (Ok b) /\
  to_string Release a (-1) = Ret (bytes "-" ++ repeat 55 65)%list /\ (value b == 0)%Q /\ cmp Release a b = Ret Lt.
Proof.
  do 2 eexists. split; [vm_compute; reflexivity|]. split; [vm_compute; reflexivity|]. split; [vm_compute; reflexivity|]. split; vm_compute; reflexivity.
Qed.
