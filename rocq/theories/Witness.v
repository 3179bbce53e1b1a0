(** * Concrete decimals for the examples beside the theorems.

    Boolean versions of the predicates of [Spec] (proved equivalent), so that
    an example can show by computation that a concrete decimal meets the
    hypotheses of a theorem. *)
From Coq Require Import ZArith List Bool String Lia QArith.
From Coq Require Import ZifyBool.
Import ListNotations.
From Verif Require Import Rust Tables Model_Base Model_Cmp Model_Serde Spec Tests.
Open Scope Z_scope.

Definition wfb (d : fd) : bool :=
  (Nat.eqb (List.length (fd_lsu d)) 9)
  && forallb (fun u => (0 <=? u) && (u <? base)) (fd_lsu d)
  && (-128 <=? fd_intg d) && (fd_intg d <? 128) && (0 <=? fd_frac d) && (iu d + fu d <=? 9).
Definition cleanb (d : fd) : bool :=
  forallb (fun u => u =? 0) (skipn (Z.to_nat (iu d + fu d)) (fd_lsu d)).
Definition tightb (d : fd) : bool := magnitude d <? 10 ^ (int_digits d) * base ^ fu d.
Definition nohiddenb (d : fd) : bool := magnitude d mod 10 ^ (9 * fu d - frac_digits d) =? 0.

Lemma wfb_wf d : wfb d = true -> wf d.
Proof.
  unfold wfb. rewrite !andb_true_iff. intros [[[[[L U] I1] I2] F] T].
  constructor; try lia.
  - apply Forall_forall. intros x Hx. rewrite forallb_forall in U. specialize (U x Hx). lia.
Qed.
Lemma cleanb_clean d : cleanb d = true -> clean d.
Proof.
  unfold cleanb, clean. rewrite forallb_forall. intros H. apply Forall_forall. intros x Hx.
  specialize (H x Hx). lia.
Qed.
Lemma tightb_tight d : tightb d = true -> tight d.
Proof. unfold tightb, tight. lia. Qed.
Lemma nohiddenb_nohidden d : nohiddenb d = true -> nohidden d.
Proof. unfold nohiddenb, nohidden. lia. Qed.

(** [dec "12.5"]: the decimal a debug build parses from the string; zero if
    the string is rejected (the examples below use valid strings). *)
Definition dec (s : string) : fd := match p Debug s with Ret d => d | Panic _ => zero end.

Ltac wfd := apply wfb_wf; vm_compute; reflexivity.
Ltac cleand := apply cleanb_clean; vm_compute; reflexivity.
Ltac tightd := apply tightb_tight; vm_compute; reflexivity.
Ltac nohiddend := apply nohiddenb_nohidden; vm_compute; reflexivity.
Ltac nzd := let H1 := fresh in let H2 := fresh in intros [H1 H2]; vm_compute in H1, H2; first [discriminate H1 | discriminate H2].
(** Splits a conjunction of hypotheses of a theorem and closes what computes. *)
Ltac hyp1 := match goal with
  | |- wf _ => wfd
  | |- regular _ => split; [wfd|split; [cleand|split; [tightd|nohiddend]]]
  | |- product_fits _ _ => split; vm_compute; discriminate
  | |- clean _ => cleand
  | |- tight _ => tightd
  | |- nohidden _ => nohiddend
  | |- ~ negzero _ => nzd
  | |- significant_units _ _ => idtac
  | |- div_room _ _ _ => repeat split; vm_compute; discriminate
  | |- sane_request _ _ _ => vm_compute; discriminate
  | |- leading_digit _ _ => split; vm_compute; first [discriminate | reflexivity]
  | |- exists _, _ => idtac
  | |- forall _, _ => idtac
  | |- _ => vm_compute; first [reflexivity | discriminate]
  end.
Ltac hyps := cbv zeta; repeat match goal with |- _ /\ _ => split end; hyp1.

(** [sigu x k] shows [significant_units n d] by the digits [x * base ^ k]. *)
Ltac sigu x k := exists x, k; split; [split|split]; vm_compute; first [reflexivity | discriminate].
