(** * Properties: digit strings of every length in a release build (C91). *)
From Coq Require Import ZArith List Bool String Lia QArith Qabs.
From Verif Require Import Rust Tables Model_Base Model_Cmp Model_Round Model_Decimal Model_Arith Model_Serde Spec Spec_Div Lib QLib Sign Basics AddSub Digits Scan Parse ParseMain ParseThms ParseAny
  RoundQ Prop_Parse Tests Witness.
Import ListNotations.
Open Scope Z_scope.

Lemma as_i8_step d n : as_i8 (as_i8 d + n) = as_i8 (d + n).
Proof.
  unfold as_i8. replace (-128 + (d + 128) mod 256 + n + 128) with ((d + 128) mod 256 + n) by ring. rewrite Z.add_mod_idemp_l by lia.
  replace (d + 128 + n) with (d + n + 128) by ring. reflexivity.
Qed.

Lemma i8_release z : i8 Release z = Ret (as_i8 z).
Proof.
  unfold i8, chk, as_i8. destruct ((-128 <=? z) && (z <=? 127)) eqn:E; [|do 2 f_equal; replace (z - -128) with (z + 128) by ring; reflexivity].
  f_equal. rewrite Z.mod_small by lia. lia.
Qed.

Lemma scan_release ds i d last cf ng : Forall is_digit ds ->
  scan_loop Release (map digit_byte ds) i (as_i8 d) (-1) last cf ng =
  Ret (mkscan (i + zlength ds) (as_i8 (d + zlength ds)) (-1) (match ds with [] => last | _ => i + zlength ds end) cf ng false).
Proof.
  intros F. revert i d last. induction F as [|x ds Hx F IH]; intros i d last.
  - cbn [map scan_loop]. rewrite zlength_nil, !Z.add_0_r. reflexivity.
  - cbn [map scan_loop]. rewrite zlength_cons. unfold is_digit in Hx. unfold c0, c9. unfold digit_byte at 1 2.
    replace ((48 + x >=? 48) && (48 + x <=? 57)) with true by lia.
    rewrite i8_release. mret. rewrite as_i8_step, IH.
    replace (i + 1 + zlength ds) with (i + (1 + zlength ds)) by lia.
    replace (d + 1 + zlength ds) with (d + (1 + zlength ds)) by lia.
    destruct ds; [rewrite zlength_nil; replace (i + 1) with (i + (1 + 0)) by lia; reflexivity | reflexivity].
Qed.

Lemma scan_signed s ds : Forall is_digit ds -> ds <> [] ->
  scan_loop Release (sign_bytes s ++ map digit_byte ds) (-1) 0 (-1) (-1) 0 false =
  Ret (mkscan (opt_len s - 1 + zlength ds) (as_i8 (zlength ds)) (-1) (opt_len s - 1 + zlength ds) (opt_len s) (is_minus s) false).
Proof.
  intros F N. assert (E : scan_loop Release (sign_bytes s ++ map digit_byte ds) (-1) 0 (-1) (-1) 0 false =
     scan_loop Release (map digit_byte ds) (opt_len s - 1) (as_i8 0) (-1) (-1) (opt_len s) (is_minus s)) by (destruct s as [[]|]; reflexivity).
  rewrite E, scan_release by exact F. rewrite Z.add_0_l. destruct ds; [contradiction|reflexivity].
Qed.

Definition read_digits (ds : list Z) : Z := zlength ds mod 256.

Theorem C91_digit_strings_in_release : forall self s ds reset, wf self -> Forall is_digit ds -> ds <> [] ->
  let w := read_digits ds in
  (w <= 65 -> exists d, from_bytes_str Release self (sign_bytes s ++ map digit_byte ds) reset = Ret (Ok tt, d) /\ wf d /\
     int_digits d = w /\ frac_digits d = 0 /\
     (value d == inject_Z ((if is_minus s then -1 else 1) * digits_value (firstn (Z.to_nat w) ds)))%Q) /\
  (65 < w -> from_bytes_str Release self (sign_bytes s ++ map digit_byte ds) reset = Ret (Err ConversionSyntax, if reset then set_zero self else self)).
Proof.
  intros self s ds reset W F N w. set (bs := (sign_bytes s ++ map digit_byte ds)%list).
  assert (P : 1 <= zlength ds) by (destruct ds; [contradiction|]; rewrite zlength_cons; pose proof (zlength_nonneg _ ds); lia).
  assert (NB : bs <> []) by (subst bs; destruct ds; [contradiction|]; destruct s as [[]|]; discriminate).
  set (t := if reset then set_zero self else self).
  assert (WT : wf t) by (subst t; destruct reset; [|exact W]; exact wf_zero).
  pose proof (opt_len_range s) as OL.
  assert (E : from_bytes_str Release self bs reset = (if as_usize (as_i8 (zlength ds)) >? MAX_DIGITS then Ret (Err ConversionSyntax, t) else
     d <- convert Release t bs (mkscan (opt_len s - 1 + zlength ds) (as_i8 (zlength ds)) (-1) (opt_len s - 1 + zlength ds) (opt_len s) (is_minus s) false) 0 (as_i8 (zlength ds)) 0 ;; Ret (Ok tt, d))).
  { pose proof (scan_signed s ds F N) as SC. fold bs in SC. clearbody bs. destruct bs as [|c r]; [contradiction|]. unfold from_bytes_str. fold t. rewrite SC. mret. cbn [s_last s_more s_dotchar s_d].
    replace (opt_len s - 1 + zlength ds =? -1) with false by (clear - OL P; lia). mret. change (-1 =? -1) with true. cbn [orb]. unfold layout.
    change (i8 Release (as_i8 0 - as_i8 0)) with (Ret 0). mret. change (0 ?= 0) with Eq. cbv iota. mret. reflexivity. }
  assert (B : 0 <= w < 256) by (apply Z.mod_pos_bound; lia).
  assert (EW : as_i8 (zlength ds) = if w <? 128 then w else w - 256).
  { unfold as_i8, w, read_digits. clear. destruct (Z.ltb_spec (zlength ds mod 256) 128); lia. }
  split.
  2:{ intros H. rewrite E. replace (as_usize (as_i8 (zlength ds)) >? MAX_DIGITS) with true; [reflexivity|]. rewrite EW. unfold as_usize, MAX_DIGITS.
      clear - B H. destruct (Z.ltb_spec w 128); lia. }
  intros H. assert (EA : as_i8 (zlength ds) = w) by (rewrite EW; replace (w <? 128) with true by lia; reflexivity).
  rewrite EA in E. replace (as_usize w >? MAX_DIGITS) with false in E by (unfold as_usize, MAX_DIGITS; rewrite Z.mod_small by lia; lia).
  assert (X : exists l, convert Release t bs (mkscan (opt_len s - 1 + zlength ds) w (-1) (opt_len s - 1 + zlength ds) (opt_len s) (is_minus s) false) 0 w 0 = Ret (signed (is_minus s) (mkfd w 0 l)) /\
     uok l /\ zlen l = 9 /\ sg l 0 (units_for w) = digits_value (firstn (Z.to_nat w) ds)).
  { rewrite convert_eq, Z.sub_0_r. cbn [s_last s_cfirst s_neg]. rewrite i8_ok by lia. mret. rewrite !get_units_ok by lia. mret. change (units_for 0) with 0. mret. rewrite Z.add_0_r.
    assert (BU : 9 * units_for w - 8 <= w <= 9 * units_for w) by (unfold units_for; lia).
    pose proof (wf_uok _ WT) as U. pose proof (wf_zlen _ WT) as L.
    destruct (Z.eq_dec w 0) as [W0|W0].
    - rewrite W0. change (units_for 0) with 0. change (usize Release (0 - 1)) with (Ret 18446744073709551615). mret. change (0 >? 0) with false. cbv iota. mret. mret. change (i8 Release 0) with (Ret 0). mret. exists (fd_lsu t). split; [reflexivity|]. split; [exact U|]. split; [exact L|]. reflexivity.
    - rewrite usize_ok by lia. mret. rewrite as_isize_id by lia. replace (units_for w >? 0) with true by lia. mret.
      assert (CU : (w - 1) / 9 = units_for w - 1) by (clear - BU; lia).
      destruct (intg_phase_ok Release 0 (map digit_byte ds) ds (dotted_map ds F N) ltac:(lia) (sign_bytes s) [] 0 w (fd_lsu t) (S (List.length bs))) as (l & m1 & m2 & E1 & U1 & L1 & _ & _ & V);
        [exact U|exact L|lia|lia| |subst bs; rewrite app_length; clear; lia|].
      { pose proof (p10 (8 - (w - 1) mod 9) ltac:(lia)). lia. }
      rewrite app_nil_r, zlength_map, CU in E1. fold bs in E1. fold (opt_len s) in E1.
      replace (opt_len s - 1 + zlength ds) with (opt_len s + zlength ds - 1) by lia. replace (units_for w - 1) with (0 + (units_for w - 1)) by lia.
      rewrite E1. mret. change (0 >? 0) with false. cbv iota. mret. mret. exists l. split; [reflexivity|]. split; [exact U1|]. split; [exact L1|]. rewrite CU in V. replace (units_for w - 1 + 1) with (units_for w) in V by lia.
      destruct V as [(V1 & _ & V)|(d1 & d2 & ED & LD & _ & V)].
      + assert (zlength ds = w) as EL by (pose proof (Z.mod_le (zlength ds) 256 ltac:(lia) ltac:(lia)) as ML; fold (read_digits ds) in ML; fold w in ML; clear - V1 ML; lia). rewrite V, EL, Z.sub_diag.
        rewrite firstn_all2; [change (10 ^ 0) with 1; ring|]. unfold zlength in EL. lia.
      + rewrite V, ED. rewrite firstn_app. replace (Z.to_nat w - List.length d1)%nat with 0%nat by (unfold zlength in LD; lia). cbn [firstn]. rewrite app_nil_r, firstn_all2 by (unfold zlength in LD; lia). ring. }
  destruct X as (l & X & U & L & V). rewrite X in E. cbv beta iota in E. rewrite bind_Ret in E.
  pose proof (parse_any _ _ _ _ _ _ W E) as WD.
  destruct (signed_facts (is_minus s) w 0 l ltac:(lia)) as (S1 & S2 & S3 & S4 & S5 & S6).
  set (d := signed _ _) in *. clearbody d. exists d. split; [exact E|]. split; [exact WD|]. split; [exact S2|]. split; [exact S3|].
  assert (FU : fu d = 0) by (unfold fu; rewrite S3; reflexivity). assert (IU : iu d = units_for w) by (unfold iu; rewrite S2; reflexivity).
  rewrite (value_scaled d (digits_value (firstn (Z.to_nat w) ds)) 0 WD).
  - rewrite S1. unfold sgn. rewrite Qmult_comm. change (pow10 (- (0))) with 1%Q. rewrite Qmult_1_l. destruct (is_minus s); apply inject_Z_injective; ring.
  - lia.
  - rewrite magnitude_sg, FU, IU, S4, Z.add_0_r, V. change (10 ^ (9 * 0 - 0)) with 1. ring.
Qed.

Print Assumptions C91_digit_strings_in_release.

(** So a release build never rejects a digit string for being too long as such: a string of digits that does not start with 0 and is
    read at all is read correctly exactly when it has at most 65 digits. *)
Theorem C91_read_right_up_to_65_digits : forall self s x ds reset d, wf self -> Forall is_digit (x :: ds) -> x <> 0 ->
  from_bytes_str Release self (sign_bytes s ++ map digit_byte (x :: ds)) reset = Ret (Ok tt, d) ->
  ((value d == inject_Z ((if is_minus s then -1 else 1) * digits_value (x :: ds)))%Q <-> zlength (x :: ds) <= 65).
Proof.
  intros self s x ds reset d W F X E.
  destruct (C91_digit_strings_in_release self s (x :: ds) reset W F ltac:(discriminate)) as (A & B). set (w := read_digits (x :: ds)) in *.
  destruct (Z_le_gt_dec w 65) as [H|H]; [|rewrite B in E by lia; discriminate E]. destruct (A H) as (d' & E' & _ & _ & _ & V). rewrite E' in E. assert (d' = d) as -> by congruence. clear A B E E'.
  rewrite V. assert (P : 1 <= zlength (x :: ds)) by (rewrite zlength_cons; pose proof (zlength_nonneg _ ds); lia).
  assert (BW : 0 <= w < 256) by (apply Z.mod_pos_bound; lia).
  split.
  - intros Q. assert (EZ : digits_value (firstn (Z.to_nat w) (x :: ds)) = digits_value (x :: ds)).
    { unfold Qeq in Q. cbn [Qnum Qden inject_Z] in Q. destruct (is_minus s); lia. }
    clear Q V. destruct (Z_le_gt_dec (zlength (x :: ds)) 65) as [L|L]; [exact L|exfalso].
    assert (G : 256 <= zlength (x :: ds)).
    { destruct (Z_lt_le_dec (zlength (x :: ds)) 256) as [L2|L2]; [|exact L2]. subst w. unfold read_digits in H. rewrite Z.mod_small in H by lia. lia. }
    assert (LO : 10 ^ (zlength (x :: ds) - 1) <= digits_value (x :: ds)).
    { inversion F as [|? ? Fx Fd]; subst. rewrite digits_value_cons, zlength_cons. replace (1 + zlength ds - 1) with (zlength ds) by lia.
      pose proof (digits_value_bound ds Fd). unfold is_digit in Fx. pose proof (p10 (zlength ds) (zlength_nonneg _ ds)). nia. }
    assert (HI : digits_value (firstn (Z.to_nat w) (x :: ds)) < 10 ^ w).
    { assert (FF : Forall is_digit (firstn (Z.to_nat w) (x :: ds))) by (apply Forall_forall; intros y Hy; apply (proj1 (Forall_forall _ _) F); rewrite <- (firstn_skipn (Z.to_nat w) (x :: ds)); apply in_or_app; left; exact Hy).
      pose proof (digits_value_bound _ FF) as [_ B]. replace w with (zlength (firstn (Z.to_nat w) (x :: ds))) at 2; [exact B|].
      unfold zlength in *. rewrite firstn_length. lia. }
    assert (10 ^ w <= 10 ^ (zlength (x :: ds) - 1)) by (apply Z.pow_le_mono_r; lia). lia.
  - intros L. subst w. unfold read_digits. rewrite Z.mod_small by lia. rewrite firstn_all2; [reflexivity|]. unfold zlength. lia.
Qed.
Print Assumptions C91_read_right_up_to_65_digits.

(** 321 sevens are read as 65 sevens, 256 of them as zero, and 100 are rejected. *)
Example C91_example : exists a b, from_bytes_str Release zero (sign_bytes (Some true) ++ map digit_byte (repeat 7 321)) false = Ret (Ok tt, a) /\
  from_bytes_str Release zero (sign_bytes None ++ map digit_byte (repeat 7 256)) false = Ret (Ok tt, b) /\
  read_digits (repeat 7 321) = 65 /\ int_digits a = 65 /\ int_digits b = 0 /\
  to_string Release a (-1) = Ret (sign_bytes (Some true) ++ map digit_byte (repeat 7 65))%list /\
  from_bytes_str Release zero (sign_bytes None ++ map digit_byte (repeat 7 100)) false = Ret (Err ConversionSyntax, zero).
Proof.
  do 2 eexists. split; [vm_compute; reflexivity|]. split; [vm_compute; reflexivity|]. split; [vm_compute; reflexivity|]. split; [vm_compute; reflexivity|].
  split; [vm_compute; reflexivity|]. split; vm_compute; reflexivity.
Qed.
Example C91_right : Forall is_digit (repeat 7 65) /\ zlength (repeat 7 65) <= 65.
Proof. split; [|vm_compute; discriminate]. apply Forall_forall. intros y H. apply repeat_spec in H. subst. unfold is_digit. lia. Qed.
