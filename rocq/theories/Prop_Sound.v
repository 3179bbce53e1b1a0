(** * Properties: what holds without any assumption on the operands beyond
    well-formedness (further parts of C04, C42, C44). *)
From Coq Require Import ZArith List Bool String Lia QArith Qabs.
From Verif Require Import Rust Model_Base Model_Cmp Model_Round Model_Decimal Model_Arith Model_Serde Spec Spec_Div Spec_History Lib Sign Basics QLib AddSubQ ParseThms ParseMain Sound Prop_Div Prop_History Tests Witness.
Import ListNotations.
Open Scope Z_scope.

(** C04, debug builds, strings of every length: a returned number is the one
    denoted, a numeral within the limits is accepted, and a panic occurs only on more than 62 mantissa
    digits or an exponent part of eleven bytes or more (and never on a numeral within the limits). *)
Theorem C04_debug_builds_partial : forall self bs reset, wf self ->
  (exists n d, numeral_ok n /\ within_limits n /\ bs = numeral_bytes n /\ from_bytes_str Debug self bs reset = Ret (Ok tt, d) /\
     wf d /\ (value d == numeral_value n)%Q /\ neg d = is_minus (n_sign n) /\ frac_digits d = numeral_frac n) \/
  ((forall n, numeral_ok n -> within_limits n -> numeral_bytes n <> bs) /\
   ((exists d, from_bytes_str Debug self bs reset = Ret (Err ConversionSyntax, d)) \/
    ((62 < mantissa_digits bs \/ 11 <= exp_length bs) /\ from_bytes_str Debug self bs reset = Panic POverflow))).
Proof.
  intros self bs reset W. destruct (parse_debug_cases self reset bs W) as [(n & d & EB & OK & WL & E & [PW PV PN PF _ _ _ _])|(N & [E|E])].
  - left. exists n, d. auto 10.
  - right. split; [exact N|]. left. eauto.
  - right. split; [exact N|]. right. exact E.
Qed.
Print Assumptions C04_debug_builds_partial.
(** A string of 301 digits, and one of 12 digits with 300 behind the first wrong byte. *)
Example C04_debug_example : from_bytes_str Debug zero (bytes "1" ++ repeat 48 300) true = Panic POverflow /\
  300 < mantissa_digits (bytes "123456789.012x" ++ repeat 48 300) /\
  from_bytes_str Debug zero (bytes "123456789.012x" ++ repeat 48 300) true = Ret (Err ConversionSyntax, zero).
Proof. split; [vm_compute; reflexivity|]. split; vm_compute; reflexivity. Qed.

(** C42: rounding in place and into a result, every well-formed decimal (with
    hidden digits, with stale units above the declared ones) and every position up to 127. *)
Theorem C42_well_formed_partial : forall m a f d res, wf a -> -9223372036854775807 < f <= 127 ->
  round m a f = Ret d \/ round_to m a res f = Ret d -> wf d.
Proof. intros m a f d res W F [H|H]; [eapply round_any; eassumption|eapply round_to_any; eassumption]. Qed.
Print Assumptions C42_well_formed_partial.
Example C42_well_formed_example : let a := mkfd 2 1 [999999999; 99; 7; 0; 0; 0; 0; 0; 999999999] in wf a /\ ~ clean a /\ ~ nohidden a /\
  (exists d, round Debug a 0 = Ret d /\ (value d == 100)%Q) /\ exists d, round Debug a 12 = Ret d.
Proof.
  split; [apply wfb_wf; vm_compute; reflexivity|]. split; [intros C; inversion C as [|? ? X]; discriminate X|]. split; [intros N; vm_compute in N; discriminate N|].
  split; eexists; [split; vm_compute; reflexivity|vm_compute; reflexivity].
Qed.

(** C44: with the calls of [sound_call] - in a debug build all calls - every
    variable holds a well-formed decimal after every history. *)
Theorem C44_well_formed_histories_partial : forall m st cs st', (forall i, wf (st i)) -> history (sound_call m) m st cs st' -> forall i, wf (st' i).
Proof. exact sound_history. Qed.
Print Assumptions C44_well_formed_histories_partial.
(** Debug builds, spelled out: only the types of the arguments and the
    rounding positions are restricted. *)
Definition typed_call (st : state) (c : call) : Prop :=
  match c with
  | FromI64 _ n => -9223372036854775808 <= n <= 9223372036854775807
  | FromU64 _ n => 0 <= n <= 18446744073709551615
  | RoundTo _ _ f | Round _ f => -9223372036854775807 < f <= 127
  | _ => True
  end.
Theorem C44_debug_histories_partial : forall cs st, history typed_call Debug (fun _ => zero) cs st -> forall i, wf (st i).
Proof.
  intros cs st H. apply (sound_history Debug (fun _ => zero) cs st); [intros i; apply wf_zero|]. induction H as [st|st c cs rs d st' A E H IH]; [constructor|].
  econstructor; [|exact E|exact IH]. destruct c; cbn in *; auto; discriminate.
Qed.
Print Assumptions C44_debug_histories_partial.
(** Comparison, sums and differences of what a history leaves. *)
Theorem C44_values_are_operands_partial : forall m st cs st', (forall i, wf (st i)) -> history (sound_call m) m st cs st' ->
  forall m' i j res, (~ (value (st' i) == 0)%Q \/ ~ (value (st' j) == 0)%Q -> cmp m' (st' i) (st' j) = Ret (Qcompare (value (st' i)) (value (st' j)))) /\
  (forall rs d, add_to m' (st' i) (st' j) res = Ret (rs, d) -> rs = Ok tt /\ (value d == value (st' i) + value (st' j))%Q) /\
  (forall rs d, sub_to m' (st' i) (st' j) res = Ret (rs, d) -> rs = Ok tt /\ (value d == value (st' i) - value (st' j))%Q).
Proof.
  intros m st cs st' R H m' i j res. pose proof (sound_history m st cs st' R H) as R'. pose proof (R' i) as A. pose proof (R' j) as B. split; [|split].
  - intros N. rewrite (cmp_numeric m' _ _ A B). destruct (Qcompare (value (st' i)) (value (st' j))) eqn:E; try reflexivity. apply Qeq_alt in E.
    assert (Na : ~ (value (st' i) == 0)%Q) by (destruct N as [N|N]; [exact N|rewrite E; exact N]).
    destruct (neg (st' i)) eqn:N1, (neg (st' j)) eqn:N2; try reflexivity; exfalso; apply Na.
    + apply (Qle_antisym _ _ (neg_le _ A N1)). rewrite E. apply (pos_ge _ B N2).
    + apply Qle_antisym; [|apply (pos_ge _ A N1)]. rewrite E. apply (neg_le _ B N2).
  - intros rs d X. destruct (add_exact m' _ _ res rs d A B X) as (E & _ & V & _). auto.
  - intros rs d X. destruct (sub_exact m' _ _ res rs d A B X) as (E & _ & V & _). auto.
Qed.
Print Assumptions C44_values_are_operands_partial.
(** A history with a wrong quotient, a product that loses its digits, stale
    units and in-place rounding that leaves digits behind. *)
Example C44_debug_example : exists st, history typed_call Debug (fun _ => zero)
  [Parse 0 (bytes "499999999500000000") false; Parse 1 (bytes "999999999000000000.500000001") false; Div 0 1 2 4; Rem 0 2 3; Parse 0 (bytes "5000000000") true;
   Parse 1 (bytes "10") false; Div 0 1 4 4; Parse 1 (bytes "-2") false; Mul 4 1 5; Parse 0 (bytes "1.25") false; Round 0 10; Div 1 6 7 4] st /\
  negzero (st 5%nat) /\ ~ nohidden (st 0%nat) /\ ~ tight (st 4%nat).
Proof.
  eexists. split; [run_history; cbn [typed_call]; try exact I; split; [reflexivity|discriminate]|].
  split; [split; vm_compute; reflexivity|]. split; intros N; vm_compute in N; discriminate N.
Qed.
