(** * Parsing strings of 128 digits and more in a release build. *)
From Coq Require Import ZArith List Bool Lia.
From Coq Require Import ZifyBool ZifyNat.
Import ListNotations.
From Verif Require Import Rust Tables Model_Base Model_Decimal Model_Serde Spec Lib Sign AddSub Basics Digits Scan Parse ParseMain ParseThms ParseAny.
Open Scope Z_scope.

Lemma as_i8_step d n : as_i8 (as_i8 d + n) = as_i8 (d + n).
Proof.
  unfold as_i8. replace (-128 + (d + 128) mod 256 + n + 128) with ((d + 128) mod 256 + n) by ring. rewrite Z.add_mod_idemp_l by lia.
  replace (d + 128 + n) with (d + n + 128) by ring. reflexivity.
Qed.
Lemma as_i8_sub d n : as_i8 (as_i8 d - as_i8 n) = as_i8 (d - n).
Proof.
  unfold Z.sub at 1. rewrite as_i8_step. unfold as_i8. f_equal.
  replace (d + - (-128 + (n + 128) mod 256) + 128) with (d + 256 - (n + 128) mod 256) by ring. rewrite Zminus_mod_idemp_r.
  replace (d - n + 128) with (d + 256 - (n + 128)) by ring. reflexivity.
Qed.
Lemma as_i8_range z : -128 <= as_i8 z <= 127.
Proof. unfold as_i8. pose proof (Z.mod_pos_bound (z + 128) 256). lia. Qed.
Lemma as_i8_mod z : exists k, as_i8 z = z - 256 * k.
Proof. exists ((z + 128) / 256). unfold as_i8. rewrite Z.mod_eq by discriminate. ring. Qed.
Lemma i8_release z : i8 Release z = Ret (as_i8 z).
Proof.
  unfold i8, chk, as_i8. destruct ((-128 <=? z) && (z <=? 127)) eqn:E; [|do 2 f_equal; replace (z - -128) with (z + 128) by ring; reflexivity].
  f_equal. rewrite Z.mod_small by lia. lia.
Qed.
Lemma i32_release z : exists y, i32 Release z = Ret y.
Proof. unfold i32, chk. destruct (_ && _); eauto. Qed.

(** ** The scan *)
Lemma scan_wrap ds rest i d dot last cf ng : Forall is_digit ds ->
  scan_loop Release (map digit_byte ds ++ rest) i (as_i8 d) dot last cf ng =
  scan_loop Release rest (i + zlength ds) (as_i8 (d + zlength ds)) dot (match ds with [] => last | _ => i + zlength ds end) cf ng.
Proof.
  intros F. revert i d last. induction F as [|x ds Hx F IH]; intros i d last.
  - cbn [map app]. rewrite zlength_nil, !Z.add_0_r. reflexivity.
  - cbn [map app scan_loop]. rewrite zlength_cons. unfold is_digit in Hx. unfold c0, c9. unfold digit_byte at 1 2.
    replace ((48 + x >=? 48) && (48 + x <=? 57)) with true by lia. rewrite i8_release, as_i8_step. mret. rewrite IH.
    replace (i + 1 + zlength ds) with (i + (1 + zlength ds)) by ring. replace (d + 1 + zlength ds) with (d + (1 + zlength ds)) by ring.
    destruct ds; [|reflexivity]. rewrite zlength_nil. reflexivity.
Qed.
Lemma scan_release s ip pt fp rest : Forall is_digit ip -> Forall is_digit fp -> (pt = false -> fp = []) ->
  stuck s ip pt fp rest ->
  scan_loop Release (mantissa s ip pt fp ++ rest) (-1) 0 (-1) (-1) 0 false =
  Ret (mkscan (zlength (mantissa s ip pt fp) - match rest with [] => 1 | _ => 0 end)
              (as_i8 (zlength ip + zlength fp)) (scan_dot s ip pt) (scan_last s ip fp) (scan_first s ip pt) (is_minus s)
              (match rest with [] => false | _ => true end)).
Proof.
  intros FI FF PF ST. pose proof (opt_len_range s) as OS. pose proof (zlength_nonneg _ ip). pose proof (zlength_nonneg _ fp).
  assert (LM : zlength (mantissa s ip pt fp) = opt_len s + zlength ip + zlength (point_bytes pt) + zlength fp).
  { unfold mantissa. rewrite !zlength_app, !zlength_map. unfold opt_len. lia. }
  rewrite LM. unfold mantissa. rewrite <- !app_assoc.
  assert (E1 : scan_loop Release (sign_bytes s ++ map digit_byte ip ++ point_bytes pt ++ map digit_byte fp ++ rest) (-1) 0 (-1) (-1) 0 false =
     scan_loop Release (map digit_byte ip ++ point_bytes pt ++ map digit_byte fp ++ rest) (opt_len s - 1) (as_i8 0) (-1) (-1) (opt_len s) (is_minus s)).
  { destruct s as [[]|]; reflexivity. }
  rewrite E1, scan_wrap by exact FI. clear E1. rewrite Z.add_0_l.
  assert (STOP : forall i d dot last cf ng, (pt = false -> dot = -1) -> (pt = true -> dot <> -1) ->
     i = opt_len s - 1 + zlength ip + zlength (point_bytes pt) + zlength fp ->
     scan_loop Release rest i d dot last cf ng =
     Ret (mkscan (i + 1 - match rest with [] => 1 | _ => 0 end) d dot last cf ng (match rest with [] => false | _ => true end))).
  { intros i d dot last cf ng D1 D2 EI. destruct rest as [|c rest]; cbn [scan_loop].
    - f_equal. f_equal. lia.
    - destruct ST as (S1 & S2 & S3). unfold c0, c9, cdot, cminus, cplus.
      replace ((c >=? 48) && (c <=? 57)) with false by lia.
      replace ((c =? 46) && (dot =? -1)) with false by (destruct pt; [specialize (D2 eq_refl); lia | specialize (S2 eq_refl); lia]).
      assert (S4 : i + 1 = 0 -> c <> 45 /\ c <> 43).
      { intros Hi. rewrite EI in Hi. apply S3.
        - destruct s as [[]|]; [..|reflexivity]; cbn in Hi; unfold opt_len in *; cbn in *; pose proof (zlength_nonneg _ (point_bytes pt)); lia.
        - apply zlength_0. pose proof (zlength_nonneg _ (point_bytes pt)). lia.
        - destruct pt; [|reflexivity]. cbn [point_bytes] in Hi. rewrite zlength_cons in Hi. change (zlength (@nil Z)) with 0 in Hi. lia.
        - apply zlength_0. pose proof (zlength_nonneg _ (point_bytes pt)). lia. }
      replace ((i + 1 =? 0) && (c =? 45)) with false by lia.
      replace ((i + 1 =? 0) && (c =? 43)) with false by lia. f_equal. f_equal. lia. }
  destruct pt.
  - cbn [point_bytes app scan_loop]. unfold c0, c9, cdot.
    change ((46 >=? 48) && (46 <=? 57)) with false. change ((46 =? 46) && (-1 =? -1)) with true. cbv iota.
    rewrite scan_wrap by exact FF. rewrite STOP; [|discriminate|lia|cbn [point_bytes]; rewrite zlength_cons; change (zlength (@nil Z)) with 0; lia].
    f_equal. f_equal.
    + change (zlength [46]) with 1. lia.
    + unfold scan_dot. lia.
    + unfold scan_last. destruct fp; [|rewrite zlength_cons; lia]. destruct ip; [reflexivity|]. rewrite zlength_cons. lia.
    + unfold scan_first. destruct ip; [rewrite zlength_nil; destruct (opt_len s - 1 + 0 + 1 =? opt_len s) eqn:Q; lia|].
      rewrite zlength_cons. pose proof (zlength_nonneg _ ip). destruct (opt_len s - 1 + (1 + zlength ip) + 1 =? opt_len s) eqn:Q; lia.
  - specialize (PF eq_refl). subst fp. cbn [point_bytes map app]. rewrite STOP; [|reflexivity|discriminate|change (zlength (point_bytes false)) with 0; rewrite zlength_nil; lia].
    change (zlength (@nil Z)) with 0. change (zlength (point_bytes false)) with 0.
    f_equal. f_equal; [lia|f_equal; lia|..].
    + unfold scan_last. destruct ip; [reflexivity|]. rewrite zlength_cons. lia.
    + unfold scan_first. lia.
Qed.

(** ** More fractional digits than the units can take *)
Lemma pre_app (pre mid post : list Z) c : (pre ++ c :: mid ++ post)%list = ((pre ++ [c]) ++ mid ++ post)%list.
Proof. rewrite <- app_assoc. reflexivity. Qed.

Lemma frac_over mid ds : dotted mid ds -> forall pre post out cut up l fuel, 1 <= cut <= 9 -> cut + 9 * up < zlength ds -> (length mid < fuel)%nat ->
  frac_phase Release fuel (pre ++ mid ++ post) (zlength pre + zlength mid - 1) (zlength pre) out cut up l = Panic PIndex.
Proof.
  intros D. unfold frac_phase. induction D as [x Hx | x mid ds Hx D IH | mid ds D IH]; intros pre post out cut up l fuel C T FU;
    (destruct fuel as [|fuel]; [exfalso; cbn [length] in FU; lia|]); cbn [frac_loop].
  - cbn [app]. rewrite get_mid. mret. unfold is_digit in Hx. unfold digit_byte, cdot. replace (48 + x =? 46) with false by lia.
    rewrite i8_ok by lia. mret. destruct (i32_release (48 + x - c0)) as (y1 & ->). mret. rewrite pow10_get by lia. mret.
    destruct (i32_release (y1 * 10 ^ (cut - 1))) as (y2 & ->). mret. destruct (i32_release (out + y2)) as (y3 & ->). mret.
    rewrite zlength_cons, zlength_nil. replace (zlength pre =? zlength pre + (1 + 0) - 1) with true by lia. mret.
    change (zlength [x]) with 1 in T. unfold set. replace (0 <=? up) with false by lia. reflexivity.
  - pose proof (dotted_mid _ _ D) as DM. rewrite !zlength_cons in *. cbn [app]. rewrite get_mid. mret. unfold is_digit in Hx. unfold digit_byte at 1, cdot. replace (48 + x =? 46) with false by lia.
    rewrite i8_ok by lia. mret. destruct (i32_release (digit_byte x - c0)) as (y1 & ->). mret. rewrite pow10_get by lia. mret.
    destruct (i32_release (y1 * 10 ^ (cut - 1))) as (y2 & ->). mret. destruct (i32_release (out + y2)) as (y3 & ->). mret.
    replace (zlength pre =? zlength pre + (1 + zlength mid) - 1) with false by lia.
    rewrite pre_app. replace (zlength pre + (1 + zlength mid) - 1) with (zlength (pre ++ [digit_byte x]) + zlength mid - 1) by (rewrite zlength_app; change (zlength [digit_byte x]) with 1; lia).
    replace (zlength pre + 1) with (zlength (pre ++ [digit_byte x])) by (rewrite zlength_app; reflexivity). cbn [length] in FU.
    destruct (Z.gtb_spec (cut - 1) 0) as [G|G]; [apply IH; lia|].
    unfold set at 1. destruct ((0 <=? up) && (up <? zlen l)); [|reflexivity]. mret. apply IH; unfold DIGITS_PER_UNIT; lia.
  - pose proof (dotted_mid _ _ D) as DM. rewrite !zlength_cons in *. cbn [app]. rewrite get_mid. mret. unfold cdot. change (46 =? 46) with true. cbv iota.
    rewrite pre_app. replace (zlength pre + (1 + zlength mid) - 1) with (zlength (pre ++ [46]) + zlength mid - 1) by (rewrite zlength_app; change (zlength [46]) with 1; lia).
    replace (zlength pre + 1) with (zlength (pre ++ [46])) by (rewrite zlength_app; reflexivity). cbn [length] in FU. apply IH; lia.
Qed.

Lemma frac_wild mid ds : dotted mid ds -> forall pre post out cut up l fuel, 72 <= cut <= 127 \/ -128 <= cut <= -119 -> (length mid < fuel)%nat ->
  frac_phase Release fuel (pre ++ mid ++ post) (zlength pre + zlength mid - 1) (zlength pre) out cut up l = Panic PIndex.
Proof.
  assert (W : forall y (cut : Z) (A : Type) (k : Z -> outcome A), 72 <= cut <= 127 \/ -128 <= cut <= -119 ->
    (c <- i8 Release (cut - 1) ;; t <- i32 Release y ;; p <- get POW10 c ;; k p) = Panic PIndex).
  { intros y cut A k C. rewrite i8_release. mret. destruct (i32_release y) as (y1 & ->). mret. unfold get. change (zlen POW10) with 10.
    assert (X : as_i8 (cut - 1) < 0 \/ 10 <= as_i8 (cut - 1)).
    { destruct (Z.eq_dec cut (-128)) as [->|]; [right; vm_compute; discriminate|]. rewrite as_i8_id by lia. lia. }
    replace ((0 <=? as_i8 (cut - 1)) && (as_i8 (cut - 1) <? 10)) with false by lia. reflexivity. }
  intros D. unfold frac_phase. induction D as [x Hx | x mid ds Hx D IH | mid ds D IH]; intros pre post out cut up l fuel C FU;
    (destruct fuel as [|fuel]; [exfalso; cbn [length] in FU; lia|]); cbn [frac_loop].
  - cbn [app]. rewrite get_mid. mret. unfold is_digit in Hx. unfold digit_byte at 1, cdot. replace (48 + x =? 46) with false by lia.
    rewrite i8_release. mret. destruct (i32_release (digit_byte x - c0)) as (y1 & E1). specialize (W (digit_byte x - c0) cut Z (fun p => Ret p) C). rewrite i8_release, bind_Ret, E1, bind_Ret in W. rewrite E1. mret.
    destruct (get POW10 (as_i8 (cut - 1))) as [p|p]; [discriminate W|]. cbn [bind] in *. congruence.
  - rewrite !zlength_cons in *. cbn [app]. rewrite get_mid. mret. unfold is_digit in Hx. unfold digit_byte at 1, cdot. replace (48 + x =? 46) with false by lia.
    rewrite i8_release. mret. destruct (i32_release (digit_byte x - c0)) as (y1 & E1). specialize (W (digit_byte x - c0) cut Z (fun p => Ret p) C). rewrite i8_release, bind_Ret, E1, bind_Ret in W. rewrite E1. mret.
    destruct (get POW10 (as_i8 (cut - 1))) as [p|p]; [discriminate W|]. cbn [bind] in *. congruence.
  - pose proof (dotted_mid _ _ D) as DM. rewrite !zlength_cons in *. cbn [app]. rewrite get_mid. mret. unfold cdot. change (46 =? 46) with true. cbv iota.
    rewrite pre_app. replace (zlength pre + (1 + zlength mid) - 1) with (zlength (pre ++ [46]) + zlength mid - 1) by (rewrite zlength_app; change (zlength [46]) with 1; lia).
    replace (zlength pre + 1) with (zlength (pre ++ [46])) by (rewrite zlength_app; reflexivity). cbn [length] in FU. apply IH; [exact C|lia].
Qed.

Lemma heading_over fuel : forall l up hz, 0 <= hz < 9 * Z.of_nat fuel -> hz <= 127 ->
  heading_fill Release fuel l up hz = Panic PIndex \/
  exists l' up' hz', heading_fill Release fuel l up hz = Ret (l', up', hz') /\ up' <= up /\ 0 <= hz' <= 8.
Proof.
  induction fuel as [|fuel IH]; intros l up hz H B; [lia|]. cbn [heading_fill]. unfold DIGITS_PER_UNIT. destruct (Z.geb_spec hz 9) as [G|G].
  - unfold set. destruct ((0 <=? up) && (up <? zlen l)); [|left; reflexivity]. mret. rewrite i8_ok by lia. mret.
    destruct (IH (upd (Z.to_nat up) 0 l) (up - 1) (hz - 9)) as [X|(l' & up' & hz' & X & U & Z)]; [lia|lia|left; exact X|]. right. exists l', up', hz'. split; [exact X|lia].
  - right. exists l, up, hz. split; [reflexivity|lia].
Qed.

(** ** The conversion *)
Lemma mid_of s ip pt fp rest : Forall is_digit ip -> Forall is_digit fp -> (pt = false -> fp = []) -> ip ++ fp <> [] ->
  exists pre mid post, mantissa s ip pt fp ++ rest = pre ++ mid ++ post /\ dotted mid (ip ++ fp) /\ scan_first s ip pt = zlength pre /\ scan_last s ip fp = zlength pre + zlength mid - 1.
Proof.
  intros FI FF P EN. unfold mantissa, scan_first, scan_last. destruct fp as [|x fp].
  - rewrite app_nil_r in *. destruct ip as [|y ip]; [contradiction|].
    exists (sign_bytes s), (map digit_byte (y :: ip)), (point_bytes pt ++ rest). split; [change (map digit_byte []) with (@nil Z); rewrite ?app_nil_r, <- !app_assoc; cbn [app]; rewrite ?app_nil_r; reflexivity|].
    split; [rewrite ?app_nil_r; apply dotted_map; [exact FI|discriminate]|]. rewrite zlength_map. unfold opt_len. split; [destruct pt; lia | lia].
  - destruct pt; [|now specialize (P eq_refl)]. destruct ip as [|y ip].
    + exists (sign_bytes s ++ [46]), (map digit_byte (x :: fp)), rest. cbn [point_bytes]. split; [rewrite <- !app_assoc; reflexivity|].
      split; [apply dotted_map; [exact FF|discriminate]|]. rewrite zlength_map, zlength_app. unfold opt_len. change (zlength [46]) with 1. change (zlength (@nil Z)) with 0. lia.
    + exists (sign_bytes s), (map digit_byte (y :: ip) ++ 46 :: map digit_byte (x :: fp)), rest. cbn [point_bytes].
      split; [rewrite <- !app_assoc; reflexivity|]. split; [apply dotted_point; [exact FI|exact FF|discriminate]|].
      rewrite zlength_app, (zlength_cons _ 46), !zlength_map. unfold opt_len. lia.
Qed.

Lemma convert_int t pre mid post ds sc w : wf t -> dotted mid ds -> s_cfirst sc = zlength pre -> s_last sc = zlength pre + zlength mid - 1 ->
  0 <= w <= 65 -> w <= zlength ds ->
  exists l, convert Release t (pre ++ mid ++ post) sc 0 w 0 = Ret (signed (s_neg sc) (mkfd w 0 l)) /\
     uok l /\ zlen l = 9 /\ sg l 0 (units_for w) = digits_value (firstn (Z.to_nat w) ds).
Proof.
  intros W D CF LA B LE. rewrite convert_eq, Z.sub_0_r, CF, LA. rewrite i8_ok by lia. mret. rewrite !get_units_ok by lia. mret. change (units_for 0) with 0. mret. rewrite Z.add_0_r.
  assert (BU : 9 * units_for w - 8 <= w <= 9 * units_for w) by (unfold units_for; lia).
  pose proof (wf_uok _ W) as U. pose proof (wf_zlen _ W) as L.
  destruct (Z.eq_dec w 0) as [W0|W0].
  - rewrite W0. change (units_for 0) with 0. change (usize Release (0 - 1)) with (Ret 18446744073709551615). mret. change (0 >? 0) with false. cbv iota. mret. mret. change (i8 Release 0) with (Ret 0). mret. exists (fd_lsu t). split; [reflexivity|]. split; [exact U|]. split; [exact L|]. reflexivity.
  - rewrite usize_ok by lia. mret. rewrite as_isize_id by lia. replace (units_for w >? 0) with true by lia. mret.
    assert (CU : (w - 1) / 9 = units_for w - 1) by (clear - BU; lia).
    destruct (intg_phase_ok Release 0 mid ds D ltac:(lia) pre post 0 w (fd_lsu t) (S (List.length (pre ++ mid ++ post)))) as (l & m1 & m2 & E1 & U1 & L1 & _ & _ & V);
      [exact U|exact L|lia|lia| |rewrite !app_length; clear; lia|].
    { pose proof (p10 (8 - (w - 1) mod 9) ltac:(lia)). lia. }
    rewrite CU in E1. replace (units_for w - 1) with (0 + (units_for w - 1)) by lia.
    rewrite E1. mret. change (0 >? 0) with false. cbv iota. mret. mret. exists l. split; [reflexivity|]. split; [exact U1|]. split; [exact L1|]. rewrite CU in V. replace (units_for w - 1 + 1) with (units_for w) in V by lia.
    destruct V as [(V1 & _ & V)|(d1 & d2 & ED & LD & _ & V)].
    + assert (EL : zlength ds = w) by lia. rewrite V, EL, Z.sub_diag.
      rewrite firstn_all2; [change (10 ^ 0) with 1; ring|]. unfold zlength in EL. lia.
    + rewrite V, ED. rewrite firstn_app. replace (Z.to_nat w - List.length d1)%nat with 0%nat by (unfold zlength in LD; lia). cbn [firstn]. rewrite app_nil_r, firstn_all2 by (unfold zlength in LD; lia). ring.
Qed.

Lemma convert_over t pre mid post ds sc f g : wf t -> dotted mid ds -> s_cfirst sc = zlength pre -> s_last sc = zlength pre + zlength mid - 1 ->
  0 < f < g -> g <= 65 -> 9 * units_for f + (g - f) < zlength ds ->
  convert Release t (pre ++ mid ++ post) sc f g 0 = Panic PIndex.
Proof.
  intros W D CF LA F G O. rewrite convert_eq, CF, LA. rewrite i8_ok by lia. mret. rewrite !get_units_ok by lia. mret. mret.
  assert (BU : 9 * units_for (g - f) - 8 <= g - f <= 9 * units_for (g - f)) by (unfold units_for; lia).
  assert (BF : 9 * units_for f - 8 <= f <= 9 * units_for f) by (unfold units_for; lia).
  pose proof (wf_uok _ W) as U. pose proof (wf_zlen _ W) as L.
  set (iu := units_for (g - f)) in *. set (fu := units_for f) in *. clearbody iu fu.
  rewrite usize_ok by lia. mret. rewrite as_isize_id by lia. replace (iu >? 0) with true by lia. mret.
  assert (CU : (g - f - 1) / 9 = iu - 1) by (clear - BU; lia).
  destruct (intg_phase_ok Release fu mid ds D ltac:(lia) pre post 0 (g - f) (fd_lsu t) (S (List.length (pre ++ mid ++ post)))) as (l & m1 & m2 & E1 & U1 & L1 & _ & EM & V);
    [exact U|exact L|lia|lia| |rewrite !app_length; clear; lia|].
  { pose proof (p10 (8 - (g - f - 1) mod 9) ltac:(lia)). lia. }
  rewrite CU in E1. replace (iu + fu - 1) with (fu + (iu - 1)) by lia. rewrite E1. mret. replace (fu >? 0) with true by lia.
  change (heading_fill Release fill_fuel l (fu - 1) 0) with (Ret (l, fu - 1, 0)). mret. change (i8 Release (DIGITS_PER_UNIT - 0)) with (Ret 9). mret.
  destruct V as [(V1 & _ & _)|(ds1 & ds2 & EQ & Q1 & D2 & _)]; [lia|].
  assert (LS : zlength ds = zlength ds1 + zlength ds2) by (rewrite EQ; apply zlength_app).
  rewrite EM. replace (pre ++ (m1 ++ m2) ++ post) with ((pre ++ m1) ++ m2 ++ post) by (rewrite <- !app_assoc; reflexivity).
  replace (zlength pre + zlength (m1 ++ m2) - 1) with (zlength (pre ++ m1) + zlength m2 - 1) by (rewrite !zlength_app; lia).
  replace (zlength pre + zlength m1) with (zlength (pre ++ m1)) by apply zlength_app.
  rewrite (frac_over m2 ds2 D2); [reflexivity|lia|lia|rewrite !app_length; clear; lia].
Qed.

Lemma convert_far t pre mid post ds sc f hz : wf t -> dotted mid ds -> s_cfirst sc = zlength pre -> s_last sc = zlength pre + zlength mid - 1 ->
  0 < f <= 65 -> 0 <= hz <= 127 \/ -128 <= hz <= -63 -> 9 * units_for f < zlength ds ->
  convert Release t (pre ++ mid ++ post) sc f f hz = Panic PIndex.
Proof.
  intros W D CF LA F HZ O. rewrite convert_eq, CF, LA, Z.sub_diag. change (i8 Release 0) with (Ret 0). mret. rewrite !get_units_ok by lia. change (units_for 0) with 0. mret. mret.
  assert (BF : 9 * units_for f - 8 <= f <= 9 * units_for f) by (unfold units_for; lia).
  set (fu := units_for f) in *. clearbody fu.
  rewrite usize_ok by lia. mret. rewrite as_isize_id by lia. change (0 >? 0) with false. cbv iota. mret. replace (fu >? 0) with true by lia.
  assert (LB : (length mid < S (length (pre ++ mid ++ post)))%nat) by (rewrite !app_length; clear; lia).
  destruct HZ as [HZ|HZ].
  - destruct (heading_over fill_fuel (fd_lsu t) (0 + fu - 1) hz) as [->|(l' & up' & hz' & -> & UP & H8)]; [unfold fill_fuel; lia|lia|reflexivity|].
    mret. unfold DIGITS_PER_UNIT. rewrite i8_ok by lia. mret. rewrite (frac_over mid ds D); [reflexivity|lia|lia|exact LB].
  - assert (E : heading_fill Release fill_fuel (fd_lsu t) (0 + fu - 1) hz = Ret (fd_lsu t, 0 + fu - 1, hz)).
    { unfold fill_fuel. cbn [heading_fill]. unfold DIGITS_PER_UNIT. replace (hz >=? 9) with false by lia. reflexivity. }
    rewrite E. mret. rewrite i8_release. mret. unfold DIGITS_PER_UNIT.
    assert (X : 72 <= as_i8 (9 - hz) <= 127 \/ -128 <= as_i8 (9 - hz) <= -119).
    { destruct (Z_le_gt_dec (9 - hz) 127); [left; rewrite as_i8_id by lia; lia|right]. unfold as_i8. clear - HZ g. lia. }
    rewrite (frac_wild mid ds D); [reflexivity|exact X|exact LB].
Qed.
