(** * Properties: every call ends (C83). *)
From Coq Require Import ZArith List Bool String QArith.
From Verif Require Import Rust Model_Base Model_Cmp Model_Round Model_Decimal Model_Arith Model_Serde Spec Spec_History Lib Basics DivBasics DivQ Agree Term Robust2 Robust3 Prop_Sound Tests Witness.
Import ListNotations.
Open Scope Z_scope.

(** The execution is over: it returned, or it stopped with one of the panics
    of Rust. The only outcome left out is [PFuel], the mark of a loop of the model that is still
    running when its fuel is spent. *)
Inductive ended {A} : outcome A -> Prop :=
| returned x : ended (Ret x)
| panicked p : In p [POverflow; PIndex; PDivZero; PAssert; PUnreachable; POperator] -> ended (Panic p).

Lemma nofuel_ended A (o : outcome A) : nofuel o -> ended o.
Proof. unfold nofuel. destruct o as [x|p]; intros H; constructor. destruct p; cbn; auto 10; congruence. Qed.

Lemma n_div_to m a b res f : wf a -> wf b -> nofuel (div_to m a b res f).
Proof.
  intros Ha Hb. destruct (Qeq_dec (value b) 0) as [V|V]; [rewrite (div_dbz m a b res f Ha Hb V); discriminate|].
  destruct (Qeq_dec (value a) 0) as [Z|Z]; [rewrite (div_to_zero m a b res f Ha Hb Z V); discriminate|].
  rewrite value_zero_iff in V, Z by assumption. unfold div_to. cbv zeta. apply nofuel_bind; [apply n_div_abs; assumption|intros; apply n_finish_sign].
Qed.
Lemma n_rem_to m a b res : wf a -> wf b -> nofuel (rem_to m a b res).
Proof.
  intros Ha Hb. destruct (Qeq_dec (value b) 0) as [V|V]; [rewrite (rem_dbz m a b res Ha Hb V); discriminate|].
  rewrite value_zero_iff in V by assumption. unfold rem_to. cbv zeta. apply nofuel_bind; [apply n_rem_abs; assumption|intros; apply n_finish_sign].
Qed.
Lemma n_unwrap o : nofuel o -> nofuel (unwrap_op o).
Proof. intros H. unfold unwrap_op. apply nofuel_bind; [exact H|]. intros; nfs. Qed.

(** Whatever the bytes, the decimals and the arguments are (machine integers
    of their Rust type): parsing, printing, conversion, comparison, hashing, rounding, addition,
    subtraction and multiplication end. *)
Theorem C83_simple_calls_end : forall m a b res f bs buf reset i u, 0 <= u <= 18446744073709551615 ->
  ended (from_bytes_str m a bs reset) /\ ended (from_ascii_str m a bs reset) /\ ended (from_str m bs) /\
  ended (to_string m a f) /\ ended (append_str_buf m a buf f) /\
  ended (from_i64 m i) /\ ended (from_u64 m u) /\ ended (as_i64 m a) /\ ended (as_u64 m a) /\
  ended (hash m a) /\ ended (cmp m a b) /\ ended (eq m a b) /\ ended (lt m a b) /\ ended (gt m a b) /\
  ended (round m a f) /\ ended (round_to m a res f) /\
  ended (add_to m a b res) /\ ended (sub_to m a b res) /\ ended (mul_to m a b res) /\
  ended (op_add m a b) /\ ended (op_sub m a b) /\ ended (op_mul m a b).
Proof.
  intros m a b res f bs buf reset i u Hu.
  repeat apply conj; apply nofuel_ended; try solve [auto with nofuel];
    first [apply n_from_bytes_str|apply n_from_str|apply n_from_i64|apply n_from_u64; change (2 ^ 64) with 18446744073709551616; Lia.lia
          |apply n_unwrap; auto with nofuel|unfold to_string; auto with nofuel].
Qed.
Print Assumptions C83_simple_calls_end.

(** Division and remainder of well-formed decimals end: the loop that
    corrects a guessed quotient unit, the only loop of the library whose number of rounds no
    counter bounds, is left after finitely many rounds in both builds, whatever the guesses. *)
Theorem C83_division_ends : forall m a b res f, wf a -> wf b ->
  ended (div_to m a b res f) /\ ended (rem_to m a b res) /\ ended (op_div m a b) /\ ended (op_rem m a b).
Proof.
  intros m a b res f Ha Hb. repeat apply conj; apply nofuel_ended; try apply n_unwrap; (apply n_div_to || apply n_rem_to); assumption.
Qed.
Print Assumptions C83_division_ends.

(** Hence in a debug build every call ends, after every history. *)
Theorem C83_debug_histories : forall cs st c, history typed_call Debug (fun _ => zero) cs st -> typed_call st c -> ended (perform Debug st c).
Proof.
  intros cs st c H T. pose proof (C44_debug_histories_partial cs st H) as W. clear H.
  assert (K : forall A (o : outcome A) (g : A -> result unit * fd), ended o -> ended (x <- o ;; Ret (g x))) by (intros A o g [x|p P]; constructor; exact P).
  destruct c; cbn [perform typed_call] in *; try solve [constructor]; try apply K;
    try solve [apply nofuel_ended; auto with nofuel]; apply nofuel_ended.
  - apply n_from_bytes_str.
  - apply n_from_i64.
  - apply n_from_u64. change (2 ^ 64) with 18446744073709551616. Lia.lia.
  - apply n_rem_to; apply W.
  - apply n_div_to; apply W.
Qed.
Print Assumptions C83_debug_histories.
(** The same for the well-formed histories of a release build. *)
Theorem C83_sound_histories : forall m st0 cs st c, (forall i, wf (st0 i)) -> history (sound_call m) m st0 cs st -> sound_call m st c -> ended (perform m st c).
Proof.
  intros m st0 cs st c W0 H T. pose proof (Sound.sound_history m st0 cs st W0 H) as W. clear H.
  assert (K : forall A (o : outcome A) (g : A -> result unit * fd), ended o -> ended (x <- o ;; Ret (g x))) by (intros A o g [x|p P]; constructor; exact P).
  destruct c; cbn [perform sound_call] in *; try solve [constructor]; try apply K;
    try solve [apply nofuel_ended; auto with nofuel]; apply nofuel_ended.
  - apply n_from_bytes_str.
  - apply n_from_i64.
  - apply n_from_u64. change (2 ^ 64) with 18446744073709551616. Lia.lia.
  - apply n_rem_to; apply W.
  - apply n_div_to; apply W.
Qed.
Print Assumptions C83_sound_histories.

(** The fuel matters: a loop that needs one round more than it is given does
    not end in this sense. And a quotient whose guess is corrected twice. *)
Example C83_example : ~ ended (from_u64_loop Debug 2 18446744073709551615 (fd_lsu zero) 0) /\
  (let a := dec "499999999499999999999999999" in let b := dec "499999999999999999" in wf a /\ wf b /\ exists d, div_to Debug a b zero 0 = Ret (Ok tt, d)).
Proof.
  split; [intros H; vm_compute in H; inversion H as [|p P]; cbn in P; repeat destruct P as [P|P]; try discriminate; exact P|]. hyps. eexists. vm_compute. reflexivity.
Qed.
