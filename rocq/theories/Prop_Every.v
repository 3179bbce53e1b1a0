(** * Properties: every string in a release build (C93). *)
From Coq Require Import ZArith List Bool String Lia QArith Qabs.
From Coq Require Import ZifyBool ZifyNat.
From Verif Require Import Rust Tables Model_Base Model_Cmp Model_Round Model_Decimal Model_Arith Model_Serde Spec Spec_Long Lib QLib Sign Basics AddSub Digits Scan Parse ParseMain ParseThms ParseAny LongParse
  RoundQ Prop_Parse Prop_Exact2 Prop_Limits Tests Witness.
Import ListNotations.
Open Scope list_scope.
Open Scope Z_scope.

Lemma signed_byte_eq z : as_i8 z = signed_byte z.
Proof. unfold as_i8, signed_byte. ring. Qed.
Lemma layout_release F e d : layout Release F e (as_i8 d) =
  let f := as_i8 (F - e) in
  if f <=? 0 then Ret (0, as_i8 (d - (F - e)), 0)
  else if as_i8 d >? f then Ret (f, as_i8 d, 0) else Ret (f, f, as_i8 (f - as_i8 d)).
Proof.
  cbv zeta. unfold layout. rewrite i8_release, as_i8_sub. mret. destruct (as_i8_mod (F - e)) as (k & K). set (f := as_i8 (F - e)) in *. destruct (Z.compare_spec f 0) as [C|C|C].
  - replace (f <=? 0) with true by lia. rewrite C. do 3 f_equal. unfold as_i8. f_equal. replace (d - (F - e) + 128) with (d + 128 + (- k) * 256) by lia. rewrite Z_mod_plus_full. reflexivity.
  - replace (f <=? 0) with true by lia. rewrite i8_release. unfold f. rewrite as_i8_sub. reflexivity.
  - replace (f <=? 0) with false by lia. destruct (as_i8 d >? f); [reflexivity|]. rewrite i8_release. reflexivity.
Qed.

Lemma from_bytes_long self (reset : bool) s ip pt fp rest o : Forall is_digit ip -> Forall is_digit fp -> (pt = false -> fp = []) -> stuck s ip pt fp rest -> ip ++ fp <> [] ->
  (if match rest with [] => false | _ => true end then parse_exp Release (mantissa s ip pt fp ++ rest) (zlength (mantissa s ip pt fp)) else Ret (Some 0)) = Ret o ->
  let t := tgt reset self in
  from_bytes_str Release self (mantissa s ip pt fp ++ rest) reset =
  match o with
  | None => Ret (Err ConversionSyntax, t)
  | Some e => '(frac, digits, hz) <- layout Release (zlength fp) e (as_i8 (zlength (ip ++ fp))) ;;
     if as_usize digits >? MAX_DIGITS then Ret (Err ConversionSyntax, t)
     else d <- convert Release t (mantissa s ip pt fp ++ rest) (mkscan (zlength (mantissa s ip pt fp) - match rest with [] => 1 | _ => 0 end)
            (as_i8 (zlength ip + zlength fp)) (scan_dot s ip pt) (scan_last s ip fp) (scan_first s ip pt) (is_minus s)
            (match rest with [] => false | _ => true end)) frac digits hz ;; Ret (Ok tt, d)
  end.
Proof.
  intros FI FF P ST EN PE t. pose proof (scan_release s ip pt fp rest FI FF P ST) as SC. unfold from_bytes_str. fold (tgt reset self). fold t.
  pose proof (zlength_nonneg _ ip) as NI. pose proof (zlength_nonneg _ fp) as NF. pose proof (opt_len_range s) as OS.
  set (bs := (mantissa s ip pt fp ++ rest)%list) in *.
  assert (NB : bs <> []).
  { intros E. unfold bs, mantissa in E. apply app_eq_nil in E. destruct E as [E _]. apply app_eq_nil in E. destruct E as [_ E].
    apply app_eq_nil in E. destruct E as [E1 E]. apply app_eq_nil in E. destruct E as [_ E2]. apply EN.
    destruct ip; [|discriminate]. destruct fp; [reflexivity|discriminate]. }
  assert (SKIP : forall A (a b : A), match bs with [] => a | _ => b end = b) by (clearbody bs; destruct bs; [contradiction|reflexivity]).
  rewrite SKIP, SC. mret. cbn [s_last s_more s_i s_dotchar s_d].
  assert (LAST : 0 <= scan_last s ip fp).
  { unfold scan_last. destruct fp; [|lia]. destruct ip; [cbn in EN; contradiction|]. rewrite zlength_cons. pose proof (zlength_nonneg _ ip). lia. }
  replace (scan_last s ip fp =? -1) with false by lia.
  assert (FR : (if (scan_dot s ip pt =? -1) || (scan_last s ip fp <? scan_dot s ip pt) then 0 else scan_last s ip fp - scan_dot s ip pt) = zlength fp).
  { unfold scan_dot, scan_last. destruct pt; [|rewrite (P eq_refl); reflexivity].
    replace (opt_len s + zlength ip =? -1) with false by lia. destruct fp as [|x fp].
    - destruct ip; [cbn in EN; contradiction|]. replace (opt_len s + zlength (z :: ip) - 1 <? opt_len s + zlength (z :: ip)) with true by lia. reflexivity.
    - rewrite zlength_cons in *. pose proof (zlength_nonneg _ fp).
      replace (opt_len s + zlength ip + (1 + zlength fp) <? opt_len s + zlength ip) with false by lia. cbn [orb]. lia. }
  rewrite FR.
  assert (PE' : (if match rest with [] => false | _ => true end then parse_exp Release bs (zlength (mantissa s ip pt fp) - match rest with [] => 1 | _ => 0 end) else Ret (Some 0)) = Ret o).
  { rewrite <- PE. destruct rest; [reflexivity|]. rewrite Z.sub_0_r. reflexivity. }
  rewrite PE'. mret. destruct o as [e|]; [|reflexivity]. rewrite zlength_app. reflexivity.
Qed.

Lemma expo_read pre n : numeral_ok n -> exponent_ok n ->
  (if match expo_bytes (n_exp n) with [] => false | _ => true end then parse_exp Release (pre ++ expo_bytes (n_exp n)) (zlength pre) else Ret (Some 0)) = Ret (Some (numeral_exp n)).
Proof.
  intros (_ & _ & _ & _ & OE) E. unfold exponent_ok, numeral_exp in *. destruct (n_exp n) as [[[u sg] ds]|]; [|reflexivity].
  cbn [expo_bytes]. destruct (parse_exp_ok Release pre (exp_bytes u sg ds) ltac:(discriminate)) as (o & SP & [H|(H & _)]); [|discriminate H].
  change (match exp_bytes u sg ds with [] => false | _ => true end) with true. cbv iota. rewrite H. f_equal. apply (proj2 (SP _)). exists u, sg, ds. split; [reflexivity|]. split; [apply OE|]. split; [apply OE|]. split; [reflexivity|exact E].
Qed.

(** A numeral of 128 digits or more. The digits before the point (after applying the exponent) are counted modulo 256, and so many of the first
    digits are read as an integer, or the numeral is rejected; if the count of digits behind the point, as a signed byte, is positive,
    the numeral is rejected or the call panics. *)
Theorem C93_long_numerals_in_release : forall self n reset, wf self -> numeral_ok n -> long n ->
  let r := from_bytes_str Release self (numeral_bytes n) reset in
  (read_frac n <= 0 -> read_int n <= 65 -> exists d, r = Ret (Ok tt, d) /\ wf d /\ int_digits d = read_int n /\ frac_digits d = 0 /\ neg d = is_minus (n_sign n) /\
     (value d == inject_Z ((if is_minus (n_sign n) then -1 else 1) * digits_value (firstn (Z.to_nat (read_int n)) (n_int n ++ n_frac n))))%Q) /\
  (read_frac n <= 0 -> 65 < read_int n -> r = Ret (Err ConversionSyntax, if reset then set_zero self else self)) /\
  (0 < read_frac n -> read_total n <= 65 -> r = Panic PIndex) /\
  (0 < read_frac n -> 65 < read_total n -> r = Ret (Err ConversionSyntax, if reset then set_zero self else self)).
Proof.
  intros self n reset W OK (EX & LG) r. pose proof OK as (FI & FF & EN & P & OE).
  set (s := n_sign n). set (ip := n_int n) in *. set (fp := n_frac n) in *. set (pt := n_point n) in *. set (e := numeral_exp n) in *.
  assert (EB : numeral_bytes n = mantissa s ip pt fp ++ expo_bytes (n_exp n)) by apply numeral_bytes_eq.
  pose proof (from_bytes_long self reset s ip pt fp (expo_bytes (n_exp n)) (Some e) FI FF P (expo_stuck _ _ _ _ _) EN (expo_read _ n OK EX)) as R. cbv zeta in R. rewrite <- EB in R. fold r in R.
  change (if reset then set_zero self else self) with (tgt reset self). set (t := tgt reset self) in *.
  assert (WT : wf t) by (subst t; unfold tgt; destruct reset; [exact wf_zero|exact W]).
  destruct (mid_of s ip pt fp (expo_bytes (n_exp n)) FI FF P EN) as (pre & mid & post & EM & DT & CF & LA). rewrite <- EB in EM.
  set (sc := mkscan _ _ _ _ _ _ _) in R. assert (CF' : s_cfirst sc = zlength pre) by exact CF. assert (LA' : s_last sc = zlength pre + zlength mid - 1) by exact LA. assert (NG : s_neg sc = is_minus s) by reflexivity.
  clearbody sc. rewrite EM in R. rewrite layout_release in R. cbv zeta in R.
  unfold read_total. unfold read_frac. fold fp e. unfold read_int. fold ip e.
  rewrite <- !signed_byte_eq. set (f := as_i8 (zlength fp - e)) in *. pose proof (as_i8_range (zlength fp - e)) as RF. fold f in RF.
  set (D := zlength (ip ++ fp)) in *.
  assert (ED : D = zlength ip + zlength fp) by apply zlength_app.
  replace (D - (zlength fp - e)) with (zlength ip + e) in R by lia.
  set (w := (zlength ip + e) mod 256). assert (BW : 0 <= w < 256) by (apply Z.mod_pos_bound; lia).
  assert (EW : as_i8 (zlength ip + e) = if w <? 128 then w else w - 256).
  { unfold as_i8, w. clear. destruct (Z.ltb_spec ((zlength ip + e) mod 256) 128); lia. }
  destruct (as_i8_mod D) as (k & K). pose proof (as_i8_range D) as RD.
  split; [|split; [|split]].
  - intros F0 W65. replace (f <=? 0) with true in R by lia. rewrite bind_Ret in R. rewrite EW in R. replace (w <? 128) with true in R by lia.
    replace (as_usize w >? MAX_DIGITS) with false in R by (unfold as_usize, MAX_DIGITS; rewrite Z.mod_small by lia; lia).
    destruct (convert_int t pre mid post (ip ++ fp) sc w WT DT CF' LA' ltac:(lia)) as (l & EC & U & L & V); [fold D; lia|]. rewrite EC, bind_Ret, NG in R.
    assert (WD : wf (signed (is_minus s) (mkfd w 0 l))) by (eapply (parse_any Release self _ reset _ _ W); exact R).
    destruct (signed_facts (is_minus s) w 0 l ltac:(lia)) as (S1 & S2 & S3 & S4 & S5 & S6).
    set (d := signed _ _) in *. clearbody d. exists d. split; [exact R|]. split; [exact WD|]. split; [exact S2|]. split; [exact S3|]. split; [exact S1|].
    assert (FU : fu d = 0) by (unfold fu; rewrite S3; reflexivity). assert (IU : iu d = units_for w) by (unfold iu; rewrite S2; reflexivity).
    rewrite (value_scaled d (digits_value (firstn (Z.to_nat w) (ip ++ fp))) 0 WD).
    + rewrite S1. unfold sgn. rewrite Qmult_comm. change (pow10 (- (0))) with 1%Q. rewrite Qmult_1_l. destruct (is_minus s); apply inject_Z_injective; ring.
    + lia.
    + rewrite magnitude_sg, FU, IU, S4, Z.add_0_r, V. change (10 ^ (9 * 0 - 0)) with 1. ring.
  - intros F0 W65. replace (f <=? 0) with true in R by lia. rewrite bind_Ret in R. rewrite EW in R.
    replace (as_usize (if w <? 128 then w else w - 256) >? MAX_DIGITS) with true in R; [exact R|]. unfold as_usize, MAX_DIGITS.
    clear - BW W65. destruct (Z.ltb_spec w 128); lia.
  - intros F0 T65. replace (f <=? 0) with false in R by lia. destruct (Z.gtb_spec (as_i8 D) f) as [G|G]; rewrite bind_Ret in R.
    + assert (G65 : as_i8 D <= 65) by lia. replace (as_usize (as_i8 D) >? MAX_DIGITS) with false in R by (unfold as_usize, MAX_DIGITS; rewrite Z.mod_small by lia; lia).
      rewrite (convert_over t pre mid post (ip ++ fp) sc f (as_i8 D) WT DT CF' LA') in R; [exact R|lia|lia|]. fold D. assert (9 * units_for f <= f + 8) by (unfold units_for; clear - F0; lia). clear - H K LG G65 G F0. lia.
    + replace (as_usize f >? MAX_DIGITS) with false in R by (unfold as_usize, MAX_DIGITS; rewrite Z.mod_small by lia; lia).
      rewrite (convert_far t pre mid post (ip ++ fp) sc f (as_i8 (f - as_i8 D)) WT DT CF' LA') in R; [exact R|lia| |].
      * destruct (Z_le_gt_dec (f - as_i8 D) 127) as [Q|Q]; [left; rewrite as_i8_id by lia; lia|right]. set (x := as_i8 D) in *. clearbody x. unfold as_i8. clear - Q RD RF T65 G F0. lia.
      * fold D. assert (9 * units_for f <= f + 8) by (unfold units_for; clear - F0; lia). lia.
  - intros F0 T65. replace (f <=? 0) with false in R by lia. destruct (Z.gtb_spec (as_i8 D) f) as [G|G]; rewrite bind_Ret in R.
    + replace (as_usize (as_i8 D) >? MAX_DIGITS) with true in R; [exact R|]. unfold as_usize, MAX_DIGITS. rewrite Z.mod_small by lia. lia.
    + replace (as_usize f >? MAX_DIGITS) with true in R; [exact R|]. unfold as_usize, MAX_DIGITS. rewrite Z.mod_small by lia. lia.
Qed.
Print Assumptions C93_long_numerals_in_release.

(** Numerals within the limits are read right (C03, C04); all strings that are neither such nor long numerals are rejected. *)
Theorem C93_all_other_strings_are_rejected : forall self bs reset, wf self ->
  (forall n, numeral_ok n -> numeral_bytes n = bs -> ~ within_limits n /\ ~ long n) ->
  from_bytes_str Release self bs reset = Ret (Err ConversionSyntax, if reset then set_zero self else self).
Proof.
  intros self bs reset W N. destruct (decompose bs) as (s & ip & pt & fp & rest & -> & FI & FF & P & ST).
  destruct (Z_le_gt_dec (zlength ip + zlength fp) 127) as [L|L].
  - destruct (parse_main Release self reset s ip pt fp rest (wf_uok _ W) (wf_zlen _ W) FI FF P ST L) as [(ex & d & ER & OK & WL & _)|(_ & [H|(H & _)])]; [exfalso|exact H|discriminate H].
    destruct (N _ OK) as [X _]; [rewrite numeral_bytes_eq, ER; reflexivity|exact (X WL)].
  - assert (EN : ip ++ fp <> []).
    { intros E. apply (f_equal zlength) in E. rewrite zlength_app in E. change (zlength (@nil Z)) with 0 in E. lia. }
    assert (X : forall ex, rest = expo_bytes ex -> match ex with None => True | Some (_, _, ds) => Forall is_digit ds /\ ds <> [] end -> exponent_ok (mknum s ip pt fp ex) -> False).
    { intros ex ER OE EO. destruct (N (mknum s ip pt fp ex)) as [_ X]; [split; [exact FI|]; split; [exact FF|]; split; [exact EN|]; split; [exact P|exact OE]|rewrite numeral_bytes_eq, ER; reflexivity|].
      apply X. split; [exact EO|]. cbn [n_int n_frac]. rewrite zlength_app. lia. }
    destruct rest as [|c rest]; [exfalso; apply (X None); [reflexivity|exact I|unfold exponent_ok; cbn; lia]|].
    destruct (parse_exp_ok Release (mantissa s ip pt fp) (c :: rest) ltac:(discriminate)) as (o & SP & [H|(H & _)]); [|discriminate H].
    rewrite (from_bytes_long self reset s ip pt fp (c :: rest) o FI FF P ST EN H). destruct o as [e|]; [exfalso|reflexivity].
    destruct (proj1 (SP e) eq_refl) as (u & sg & ds & ER & FD & ND & EE & EB). apply (X (Some (u, sg, ds))); [exact ER|split; assumption|]. unfold exponent_ok, numeral_exp. cbn [n_exp]. unfold exp_value in EE. rewrite <- EE. exact EB.
Qed.
Print Assumptions C93_all_other_strings_are_rejected.

(** So parsing panics in a release build exactly on these strings. *)
Theorem C93_release_panics_iff : forall self bs reset, wf self ->
  ((exists p, from_bytes_str Release self bs reset = Panic p) <->
   exists n, numeral_ok n /\ numeral_bytes n = bs /\ long n /\ 0 < read_frac n /\ read_total n <= 65).
Proof.
  intros self bs reset W. split.
  - intros (p & E). destruct (decompose bs) as (s & ip & pt & fp & rest & EB & FI & FF & P & ST).
    destruct (Z_le_gt_dec (zlength ip + zlength fp) 127) as [L|L].
    { exfalso. destruct (parse_main Release self reset s ip pt fp rest (wf_uok _ W) (wf_zlen _ W) FI FF P ST L) as [(ex & d & _ & _ & _ & X & _)|(_ & [X|(X & _)])]; [| |discriminate X]; rewrite <- EB, E in X; discriminate X. }
    assert (Y : exists n, numeral_ok n /\ numeral_bytes n = bs /\ long n).
    { assert (EN : ip ++ fp <> []).
      { intros Q. apply (f_equal zlength) in Q. rewrite zlength_app in Q. change (zlength (@nil Z)) with 0 in Q. lia. }
      assert (MK : forall ex, rest = expo_bytes ex -> match ex with None => True | Some (_, _, ds) => Forall is_digit ds /\ ds <> [] end -> exponent_ok (mknum s ip pt fp ex) -> exists n, numeral_ok n /\ numeral_bytes n = bs /\ long n).
      { intros ex ER OE EO. exists (mknum s ip pt fp ex). split; [split; [exact FI|]; split; [exact FF|]; split; [exact EN|]; split; [exact P|exact OE]|]. split; [rewrite numeral_bytes_eq, EB, ER; reflexivity|].
        split; [exact EO|]. cbn [n_int n_frac]. rewrite zlength_app. lia. }
      destruct rest as [|c rest]; [apply (MK None); [reflexivity|exact I|unfold exponent_ok; cbn; lia]|].
      destruct (parse_exp_ok Release (mantissa s ip pt fp) (c :: rest) ltac:(discriminate)) as (o & SP & [H|(H & _)]); [|discriminate H].
      pose proof (from_bytes_long self reset s ip pt fp (c :: rest) o FI FF P ST EN H) as R. rewrite <- EB, E in R. destruct o as [e|]; [clear R|discriminate R].
      destruct (proj1 (SP e) eq_refl) as (u & sg & ds & ER & FD & ND & EE & BE). apply (MK (Some (u, sg, ds))); [exact ER|split; assumption|]. unfold exponent_ok, numeral_exp. cbn [n_exp]. unfold exp_value in EE. rewrite <- EE. exact BE. }
    destruct Y as (n & OK & E' & LG). exists n. split; [exact OK|]. split; [exact E'|]. split; [exact LG|].
    destruct (C93_long_numerals_in_release self n reset W OK LG) as (A & B & _ & D). rewrite E' in A, B, D. rewrite E in A, B, D.
    destruct (Z_le_gt_dec (read_frac n) 0) as [F|F]; [exfalso; destruct (Z_le_gt_dec (read_int n) 65) as [I|I]; [destruct (A F I) as (d & X & _); discriminate X|specialize (B F ltac:(lia)); discriminate B]|].
    split; [lia|]. destruct (Z_le_gt_dec (read_total n) 65) as [I|I]; [exact I|]. specialize (D ltac:(lia) ltac:(lia)). discriminate D.
  - intros (n & OK & <- & LG & F & T). exists PIndex. apply (C93_long_numerals_in_release self n reset W OK LG); assumption.
Qed.
Print Assumptions C93_release_panics_iff.

(** The outcome of parsing in one sentence: every byte string either is a numeral within the limits, which is read as the number it denotes; or
    a long numeral; or is rejected. *)
Theorem C93_every_string_in_release : forall self bs reset, wf self ->
  (exists n d, numeral_ok n /\ within_limits n /\ bs = numeral_bytes n /\ from_bytes_str Release self bs reset = Ret (Ok tt, d) /\
     wf d /\ (value d == numeral_value n)%Q /\ neg d = is_minus (n_sign n) /\ frac_digits d = numeral_frac n) \/
  (exists n, numeral_ok n /\ long n /\ bs = numeral_bytes n) \/
  from_bytes_str Release self bs reset = Ret (Err ConversionSyntax, if reset then set_zero self else self).
Proof.
  intros self bs reset W. destruct (decompose bs) as (s & ip & pt & fp & rest & EB & FI & FF & P & ST).
  destruct (Z_le_gt_dec (zlength ip + zlength fp) 127) as [L|L].
  - destruct (parse_main Release self reset s ip pt fp rest (wf_uok _ W) (wf_zlen _ W) FI FF P ST L) as [(ex & d & ER & OK & WL & E & [PW PV PN PF _ _ _ _])|(_ & [X|(X & _)])]; [| |discriminate X].
    + left. exists (mknum s ip pt fp ex), d. split; [exact OK|]. split; [exact WL|]. split; [rewrite numeral_bytes_eq, EB, ER; reflexivity|]. rewrite EB. auto.
    + right. right. rewrite EB. exact X.
  - right. assert (EN : ip ++ fp <> []).
    { intros Q. apply (f_equal zlength) in Q. rewrite zlength_app in Q. change (zlength (@nil Z)) with 0 in Q. lia. }
    assert (MK : forall ex, rest = expo_bytes ex -> match ex with None => True | Some (_, _, ds) => Forall is_digit ds /\ ds <> [] end -> exponent_ok (mknum s ip pt fp ex) -> exists n, numeral_ok n /\ long n /\ bs = numeral_bytes n).
    { intros ex ER OE EO. exists (mknum s ip pt fp ex). split; [split; [exact FI|]; split; [exact FF|]; split; [exact EN|]; split; [exact P|exact OE]|]. split; [|rewrite numeral_bytes_eq, EB, ER; reflexivity].
      split; [exact EO|]. cbn [n_int n_frac]. rewrite zlength_app. lia. }
    destruct rest as [|c rest]; [left; apply (MK None); [reflexivity|exact I|unfold exponent_ok; cbn; lia]|].
    destruct (parse_exp_ok Release (mantissa s ip pt fp) (c :: rest) ltac:(discriminate)) as (o & SP & [H|(H & _)]); [|discriminate H].
    destruct o as [e|].
    + left. destruct (proj1 (SP e) eq_refl) as (u & sg & ds & ER & FD & ND & EE & BE). apply (MK (Some (u, sg, ds))); [exact ER|split; assumption|]. unfold exponent_ok, numeral_exp. cbn [n_exp]. unfold exp_value in EE. rewrite <- EE. exact BE.
    + right. rewrite EB. exact (from_bytes_long self reset s ip pt fp (c :: rest) None FI FF P ST EN H).
Qed.
Print Assumptions C93_every_string_in_release.

(** C05: strings of every length, in both builds. *)
Theorem C05_every_string_partial : forall m t1 t2 r1 r2 bs d, wf t1 -> wf t2 -> from_bytes_str m t1 bs r1 = Ret (Ok tt, d) ->
  exists d', from_bytes_str m t2 bs r2 = Ret (Ok tt, d') /\ (value d' == value d)%Q /\ neg d' = neg d /\ int_digits d' = int_digits d /\ frac_digits d' = frac_digits d.
Proof.
  intros [|] t1 t2 r1 r2 bs d W1 W2 H; [exact (C05_debug_builds_partial t1 t2 r1 r2 bs d W1 W2 H)|].
  destruct (C93_every_string_in_release t1 bs r1 W1) as [(n & _ & OK & WL & -> & _)|[(n & OK & LG & ->)|E]]; [| |rewrite E in H; discriminate H].
  - assert (M : mantissa_digits (numeral_bytes n) <= 127). { rewrite (numeral_mantissa_digits n OK). destruct WL as [_ WL]. unfold numeral_digits in WL. lia. }
    destruct (C82_parsing_into_used_targets Release t1 t2 r1 r2 _ d W1 W2 M H) as (d2 & E & _ & _ & (V & N & I & F) & _). exists d2. split; [exact E|]. split; [symmetry; exact V|]. split; [congruence|]. split; congruence.
  - destruct (C93_long_numerals_in_release t1 n r1 W1 OK LG) as (A & B & C & D). destruct (C93_long_numerals_in_release t2 n r2 W2 OK LG) as (A' & _).
    rewrite H in A, B, C, D. destruct (Z_le_gt_dec (read_frac n) 0) as [F|F].
    + destruct (Z_le_gt_dec (read_int n) 65) as [I|I]; [|specialize (B F ltac:(lia)); discriminate B].
      destruct (A F I) as (d1 & E1 & _ & I1 & F1 & N1 & V1). assert (d = d1) as -> by congruence. destruct (A' F I) as (d2 & E2 & _ & I2 & F2 & N2 & V2).
      exists d2. split; [exact E2|]. split; [rewrite V1; exact V2|]. split; [congruence|]. split; congruence.
    + exfalso. destruct (Z_le_gt_dec (read_total n) 65) as [I|I]; [specialize (C ltac:(lia) I); discriminate C|specialize (D ltac:(lia) ltac:(lia)); discriminate D].
Qed.
Print Assumptions C05_every_string_partial.
Example C05_every_example : exists d d', from_bytes_str Release (dec "-123456789012.5") (map digit_byte (repeat 7 321)) false = Ret (Ok tt, d) /\
  from_bytes_str Release zero (map digit_byte (repeat 7 321)) true = Ret (Ok tt, d') /\ int_digits d = 65 /\ int_digits d' = 65.
Proof. do 2 eexists. split; [vm_compute; reflexivity|]. split; [vm_compute; reflexivity|]. split; vm_compute; reflexivity. Qed.

(** 258 digits behind the point count as two, so the call panics; with the exponent 2 they count as none and the first four digits are
    read. 129 digits behind the point count as -127, so only the digit before the point is read. *)
Example C93_example : let sevens k := repeat 7 (Z.to_nat k) in
  long (mknum None (sevens 2) true (sevens 258) None) /\ read_frac (mknum None (sevens 2) true (sevens 258) None) = 2 /\ read_total (mknum None (sevens 2) true (sevens 258) None) = 4 /\
  from_str Release (numeral_bytes (mknum None (sevens 2) true (sevens 258) None)) = Panic PIndex /\
  (exists d, from_str Release (numeral_bytes (mknum None (sevens 2) true (sevens 258) (Some (false, None, [2])))) = Ret (Ok d) /\ to_string Release d (-1) = Ret (bytes "7777")) /\
  (exists d, from_str Release (numeral_bytes (mknum (Some true) (sevens 1) true (sevens 129) None)) = Ret (Ok d) /\ to_string Release d (-1) = Ret (bytes "-7")) /\
  from_str Release (numeral_bytes (mknum None (sevens 100) true (sevens 200) None)) = Ret (Err ConversionSyntax).
Proof.
  cbv zeta. split; [split; [split; vm_compute; discriminate|vm_compute; discriminate]|]. split; [vm_compute; reflexivity|]. split; [vm_compute; reflexivity|]. split; [vm_compute; reflexivity|].
  split; [eexists; split; [vm_compute; reflexivity|vm_compute; reflexivity]|]. split; [eexists; split; [vm_compute; reflexivity|vm_compute; reflexivity]|]. vm_compute. reflexivity.
Qed.
Example C93_rejected : forall n, numeral_ok n -> numeral_bytes n = bytes "12x" -> ~ within_limits n /\ ~ long n.
Proof.
  intros n OK E. exfalso. change (bytes "12x") with (mantissa None [1; 2] false [] ++ [120]) in E.
  destruct (numeral_inj n None [1; 2] false [] [120] OK) as (_ & _ & _ & _ & X); [repeat constructor; unfold is_digit; lia|constructor|reflexivity| |exact E|].
  - cbn. unfold stop_byte. split; [lia|]. split; [lia|discriminate].
  - destruct (n_exp n) as [[[[] sg] ds]|]; discriminate X.
Qed.
