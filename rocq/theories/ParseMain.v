(** * Parsing: the whole function. *)
From Coq Require Import ZArith List Bool Lia QArith.
From Coq Require Import ZifyBool ZifyNat.
Import ListNotations.
From Verif Require Import Rust Tables Model_Base Model_Decimal Model_Serde Spec Lib AddSub QLib Digits Print Scan Parse.
Open Scope Z_scope.
Ltac Zify.zify_post_hook ::= Z.div_mod_to_equations.

Definition expo_bytes (ex : option (bool * option bool * list Z)) : list Z :=
  match ex with None => [] | Some (u, s, ds) => exp_bytes u s ds end.
Lemma numeral_bytes_eq n : numeral_bytes n = mantissa (n_sign n) (n_int n) (n_point n) (n_frac n) ++ expo_bytes (n_exp n).
Proof.
  unfold numeral_bytes, mantissa, point_bytes, expo_bytes, exp_bytes. rewrite <- !app_assoc.
  destruct (n_exp n) as [[[u s] ds]|]; reflexivity.
Qed.

Lemma map_digit_inj ds ds' : map digit_byte ds = map digit_byte ds' -> ds = ds'.
Proof.
  revert ds'. induction ds as [|x l IH]; intros [|y l'] E; try discriminate; [reflexivity|].
  cbn [map] in E. inversion E as [[H1 H2]]. unfold digit_byte in H1. f_equal; [lia | apply IH; assumption].
Qed.
Definition nodigit (l : list Z) : Prop := match l with [] => True | c :: _ => ~ (48 <= c <= 57) end.
Lemma split_digits_inj ds ds' r r' : Forall is_digit ds -> Forall is_digit ds' -> nodigit r -> nodigit r' ->
  map digit_byte ds ++ r = map digit_byte ds' ++ r' -> ds = ds' /\ r = r'.
Proof.
  intros F. revert ds'. induction F as [|x ds Hx F IH]; intros ds' F' N N' E.
  - destruct F' as [|y ds' Hy F']; [split; [reflexivity | exact E]|]. cbn [map app] in E. subst r. unfold nodigit, digit_byte, is_digit in *. lia.
  - destruct F' as [|y ds' Hy F']; cbn [map app] in E.
    + subst r'. unfold nodigit, digit_byte, is_digit in *. lia.
    + inversion E as [[H1 H2]]. destruct (IH ds' F' N N' H2) as [-> ->]. split; [|reflexivity]. f_equal. unfold digit_byte in H1. lia.
Qed.
Lemma stuck_nodigit s ip pt fp r : stuck s ip pt fp r -> nodigit r.
Proof. destruct r as [|c r]; [trivial|]. intros (H & _). exact H. Qed.

(** The decomposition is unique. *)
Lemma mantissa_inj s ip pt fp r s' ip' pt' fp' r' :
  Forall is_digit ip -> Forall is_digit fp -> (pt = false -> fp = []) -> stuck s ip pt fp r ->
  Forall is_digit ip' -> Forall is_digit fp' -> (pt' = false -> fp' = []) -> stuck s' ip' pt' fp' r' ->
  mantissa s ip pt fp ++ r = mantissa s' ip' pt' fp' ++ r' ->
  s = s' /\ ip = ip' /\ pt = pt' /\ fp = fp' /\ r = r'.
Proof.
  intros FI FF P ST FI' FF' P' ST' E. unfold mantissa in E. rewrite <- !app_assoc in E.
  assert (HS : forall s s' ip ip' pt pt' fp fp' r r', Forall is_digit ip' -> Forall is_digit fp' -> stuck s' ip' pt' fp' r' -> (pt' = false -> fp' = []) ->
     sign_bytes s ++ map digit_byte ip ++ point_bytes pt ++ map digit_byte fp ++ r = sign_bytes s' ++ map digit_byte ip' ++ point_bytes pt' ++ map digit_byte fp' ++ r' ->
     s' = None -> s = None).
  { clear. intros s s' ip ip' pt pt' fp fp' r r' FI' FF' ST' P' E ->.
    destruct s as [b|]; [exfalso|reflexivity].
    assert (H : exists c t, (c = 45 \/ c = 43) /\ c :: t = map digit_byte ip' ++ point_bytes pt' ++ map digit_byte fp' ++ r').
    { destruct b; cbn [sign_bytes app] in E; eexists; eexists; (split; [|exact E]); auto. }
    destruct H as (c & t & Hc & H). destruct FI' as [|x ip' Hx FI'].
    - destruct pt'; [cbn in H; inversion H; lia|]. rewrite (P' eq_refl) in *. cbn in H. subst r'. destruct ST' as (_ & _ & S3).
      specialize (S3 eq_refl eq_refl eq_refl eq_refl). lia.
    - cbn [map app] in H. inversion H. unfold is_digit, digit_byte in *. lia. }
  assert (ES : s = s').
  { pose proof (HS s s' ip ip' pt pt' fp fp' r r' FI' FF' ST' P' E) as H1.
    pose proof (HS s' s ip' ip pt' pt fp' fp r' r FI FF ST P (eq_sym E)) as H2.
    destruct s as [b|], s' as [b'|]; try (specialize (H1 eq_refl); discriminate); try (specialize (H2 eq_refl); discriminate); [|reflexivity].
    destruct b, b'; try reflexivity; cbn in E; discriminate. }
  subst s'. apply app_inv_head in E. clear HS.
  assert (NP : forall pt fp r, (pt = false -> fp = []) -> stuck s ip pt fp r \/ stuck s ip' pt fp r -> nodigit (point_bytes pt ++ map digit_byte fp ++ r)).
  { clear. intros pt fp r P H. destruct pt; [cbn; lia|]. rewrite (P eq_refl) in *. cbn. destruct H as [H|H]; apply stuck_nodigit in H; exact H. }
  destruct (split_digits_inj _ _ _ _ FI FI' (NP _ _ _ P (or_introl ST)) (NP _ _ _ P' (or_intror ST')) E) as [-> E2].
  split; [reflexivity|]. split; [reflexivity|].
  assert (EP : pt = pt').
  { destruct pt, pt'; try reflexivity.
    - rewrite (P' eq_refl) in *. cbn in E2. subst r'. destruct ST' as (_ & S2 & _). now specialize (S2 eq_refl).
    - rewrite (P eq_refl) in *. cbn in E2. subst r. destruct ST as (_ & S2 & _). now specialize (S2 eq_refl). }
  subst pt'. apply app_inv_head in E2. split; [reflexivity|].
  apply split_digits_inj; try assumption; eapply stuck_nodigit; eassumption.
Qed.

Lemma expo_stuck s ip pt fp ex : stuck s ip pt fp (expo_bytes ex).
Proof.
  destruct ex as [[[u sg] ds]|]; cbn; [|trivial]. unfold stop_byte. destruct u; repeat split; try lia; discriminate.
Qed.

Lemma numeral_inj n s ip pt fp r : numeral_ok n ->
  Forall is_digit ip -> Forall is_digit fp -> (pt = false -> fp = []) -> stuck s ip pt fp r ->
  numeral_bytes n = mantissa s ip pt fp ++ r ->
  n_sign n = s /\ n_int n = ip /\ n_point n = pt /\ n_frac n = fp /\ expo_bytes (n_exp n) = r.
Proof.
  intros (O1 & O2 & _ & O4 & _) FI FF P ST E. rewrite numeral_bytes_eq in E.
  apply (mantissa_inj _ _ _ _ _ s ip pt fp r O1 O2 O4 (expo_stuck _ _ _ _ _) FI FF P ST E).
Qed.

(** What a successful parse of [n] leaves in a target whose units were those of [t]. *)
Record parsed (n : numeral) (t d : fd) : Prop := mkparsed {
  p_wf : wf d;
  p_value : (value d == numeral_value n)%Q;
  p_neg : neg d = is_minus (n_sign n);
  p_frac : frac_digits d = numeral_frac n;
  p_int : int_digits d = numeral_digits n - numeral_frac n;
  p_tight : tight d;
  p_nohidden : nohidden d;
  p_rest : forall k, iu d + fu d <= k -> zn (fd_lsu d) k = zn (fd_lsu t) k }.

Lemma signed_facts b i f l : 0 <= i < 128 ->
  neg (signed b (mkfd i f l)) = b /\ int_digits (signed b (mkfd i f l)) = i /\ frac_digits (signed b (mkfd i f l)) = f /\
  fd_lsu (signed b (mkfd i f l)) = l /\ -128 <= fd_intg (signed b (mkfd i f l)) < 128 /\ fd_frac (signed b (mkfd i f l)) = f.
Proof.
  intros H. unfold signed, neg, int_digits, frac_digits. destruct b; cbn [set_neg fd_intg fd_frac fd_lsu].
  - rewrite lor_neg by lia. repeat split; lia.
  - repeat split; lia.
Qed.

Lemma parsed_intro n t l : numeral_ok n -> within_limits n -> uok l -> zlen l = 9 ->
  sg l 0 (units_for (numeral_digits n - numeral_frac n) + units_for (numeral_frac n)) =
    digits_value (n_int n ++ n_frac n) * 10 ^ (9 * units_for (numeral_frac n) - (zlength (n_frac n) - numeral_exp n)) ->
  (forall k, units_for (numeral_digits n - numeral_frac n) + units_for (numeral_frac n) <= k -> zn l k = zn (fd_lsu t) k) ->
  parsed n t (signed (is_minus (n_sign n)) (mkfd (numeral_digits n - numeral_frac n) (numeral_frac n) l)).
Proof.
  intros OK (WE & WD) U L V K.
  set (i := numeral_digits n - numeral_frac n) in *. set (f := numeral_frac n) in *.
  assert (Hd : f = Z.max 0 (zlength (n_frac n) - numeral_exp n)) by reflexivity.
  assert (Hi : numeral_digits n = Z.max (zlength (n_int n ++ n_frac n) + Z.max 0 (numeral_exp n - zlength (n_frac n))) f) by reflexivity.
  assert (FD : Forall is_digit (n_int n ++ n_frac n)) by (apply Forall_app; destruct OK as (A & B & _); split; assumption).
  pose proof (digits_value_bound _ FD) as DB. set (L0 := n_int n ++ n_frac n) in *. pose proof (zlength_nonneg _ L0). pose proof (zlength_nonneg _ (n_frac n)).
  assert (RI : 0 <= i < 128) by lia.
  destruct (signed_facts (is_minus (n_sign n)) i f l RI) as (S1 & S2 & S3 & S4 & S5 & S6).
  set (d := signed _ _) in *.
  assert (IU : iu d = units_for i) by (unfold iu; rewrite S2; reflexivity).
  assert (FU : fu d = units_for f) by (unfold fu; rewrite S3; reflexivity).
  assert (B1 : 9 * units_for i - 8 <= i <= 9 * units_for i) by (unfold units_for; lia).
  assert (B2 : 9 * units_for f - 8 <= f <= 9 * units_for f) by (unfold units_for; lia).
  assert (W : wf d).
  { constructor; rewrite ?S4, ?S6, ?IU, ?FU; try assumption; try lia. unfold zlen in L. lia. }
  assert (M : magnitude d = digits_value L0 * 10 ^ (9 * fu d - (zlength (n_frac n) - numeral_exp n))).
  { rewrite magnitude_sg, S4, IU, FU. exact V. }
  set (raw := zlength (n_frac n) - numeral_exp n) in *.
  pose proof (p10 (9 * fu d - raw) ltac:(lia)) as PP.
  constructor; try assumption.
  - rewrite value_smag by exact W. unfold smag, numeral_value. rewrite S1.
    replace (numeral_exp n - zlength (n_frac n)) with ((9 * fu d - raw) + - (9 * fu d)) by (unfold raw; ring).
    rewrite pow10_add, (pow10_nonneg (9 * fu d - raw)) by lia. rewrite Qmult_assoc.
    apply Qmult_comp; [|reflexivity]. rewrite M. fold L0.
    destruct (is_minus (n_sign n)); rewrite ?inject_Z_opp, inject_Z_mult; ring.
  - unfold tight. rewrite M, S2. rewrite <- pow_base by lia. rewrite <- Z.pow_add_r by lia.
    assert (10 ^ zlength L0 * 10 ^ (9 * fu d - raw) <= 10 ^ (i + 9 * fu d)).
    { rewrite <- Z.pow_add_r by lia. apply Z.pow_le_mono_r; lia. }
    nia.
  - unfold nohidden. rewrite M, S3. replace (9 * fu d - raw) with ((f - raw) + (9 * fu d - f)) by lia.
    rewrite Z.pow_add_r by lia. rewrite Z.mul_assoc. apply Z.mod_mul. pose proof (p10 (9 * fu d - f) ltac:(lia)). lia.
  - rewrite IU, FU, S4. exact K.
Qed.

Definition e_head (r : list Z) : bool := match r with [] => false | c :: _ => (c =? 69) || (c =? 101) end.

Lemma parse_main m self (reset : bool) s ip pt fp rest :
  uok (fd_lsu self) -> zlen (fd_lsu self) = 9 ->
  Forall is_digit ip -> Forall is_digit fp -> (pt = false -> fp = []) -> stuck s ip pt fp rest -> zlength ip + zlength fp <= 127 ->
  let bs := mantissa s ip pt fp ++ rest in
  let t := if reset then set_zero self else self in
  (exists ex d, rest = expo_bytes ex /\ numeral_ok (mknum s ip pt fp ex) /\ within_limits (mknum s ip pt fp ex) /\
     from_bytes_str m self bs reset = Ret (Ok tt, d) /\ parsed (mknum s ip pt fp ex) t d) \/
  ((forall n, numeral_ok n -> within_limits n -> numeral_bytes n <> bs) /\
   (from_bytes_str m self bs reset = Ret (Err ConversionSyntax, t) \/
    (m = Debug /\ (62 < zlength ip + zlength fp \/ (e_head rest = true /\ 11 <= zlength rest)) /\
     from_bytes_str m self bs reset = Panic POverflow))).
Proof.
  intros U L FI FF P ST DL bs t. unfold from_bytes_str. fold t.
  assert (UT : uok (fd_lsu t) /\ zlen (fd_lsu t) = 9).
  { unfold t. destruct reset; [|split; assumption]. split; [apply uok_repeat0 | reflexivity]. }
  destruct UT as [UT LT].
  pose proof (zlength_nonneg _ ip) as NI. pose proof (zlength_nonneg _ fp) as NF. pose proof (opt_len_range s) as OS.
  (* the numerals with these bytes *)
  assert (INJ : forall n, numeral_ok n -> numeral_bytes n = bs -> exists ex, n = mknum s ip pt fp ex /\ expo_bytes ex = rest).
  { intros n OK E. destruct (numeral_inj n s ip pt fp rest OK FI FF P ST E) as (E1 & E2 & E3 & E4 & E5).
    exists (n_exp n). split; [destruct n; cbn in *; subst; reflexivity | exact E5]. }
  destruct (list_eq_dec Z.eq_dec (ip ++ fp) []) as [EN|EN].
  { (* no digit *)
    right. split.
    { intros n OK _ E. destruct (INJ n OK E) as (ex & -> & _). destruct OK as (_ & _ & O3 & _). cbn in O3. contradiction. }
    left. apply app_eq_nil in EN. destruct EN as [-> ->].
    assert (SC := scan_ok m s [] pt [] rest FI FF P ST DL). fold bs in SC. destruct bs; [reflexivity|]. rewrite SC. mret. reflexivity. }
  assert (NE : 1 <= zlength ip + zlength fp).
  { rewrite <- zlength_app. destruct (ip ++ fp); [contradiction|]. rewrite zlength_cons. pose proof (zlength_nonneg _ l). lia. }
  assert (SC := scan_ok m s ip pt fp rest FI FF P ST DL). fold bs in SC.
  assert (NB : bs <> []).
  { intros E. unfold bs, mantissa in E. apply app_eq_nil in E. destruct E as [E _]. apply app_eq_nil in E. destruct E as [_ E].
    apply app_eq_nil in E. destruct E as [E1 E]. apply app_eq_nil in E. destruct E as [_ E2]. apply EN.
    destruct ip; [|discriminate]. destruct fp; [reflexivity|discriminate]. }
  assert (SKIP : forall A (a b : A), match bs with [] => a | _ => b end = b) by (destruct bs; [contradiction|reflexivity]).
  rewrite SKIP, SC. mret. cbn [s_last s_more s_i s_dotchar s_d].
  assert (LAST : 0 <= scan_last s ip fp).
  { unfold scan_last. destruct fp; [|lia]. destruct ip; [cbn in EN; contradiction|]. rewrite zlength_cons. pose proof (zlength_nonneg _ ip). lia. }
  replace (scan_last s ip fp =? -1) with false by lia.
  assert (FR : (if (scan_dot s ip pt =? -1) || (scan_last s ip fp <? scan_dot s ip pt) then 0 else scan_last s ip fp - scan_dot s ip pt) = zlength fp).
  { unfold scan_dot, scan_last. destruct pt; [|rewrite (P eq_refl); reflexivity].
    replace (opt_len s + zlength ip =? -1) with false by lia. destruct fp as [|x fp].
    - destruct ip; [cbn in EN; contradiction|]. replace (opt_len s + zlength (z :: ip) - 1 <? opt_len s + zlength (z :: ip)) with true by lia. reflexivity.
    - rewrite zlength_cons in *. pose proof (zlength_nonneg _ fp).
      replace (opt_len s + zlength ip + (1 + zlength fp) <? opt_len s + zlength ip) with false by lia. cbn [orb]. lia. }
  rewrite FR.
  (* the part after the exponent is known *)
  assert (CORE : forall ex, rest = expo_bytes ex -> numeral_ok (mknum s ip pt fp ex) -> -30 <= numeral_exp (mknum s ip pt fp ex) <= 65 ->
     let go := ('(frac, digits, hz) <- layout m (zlength fp) (numeral_exp (mknum s ip pt fp ex)) (zlength ip + zlength fp) ;;
       if as_usize digits >? MAX_DIGITS then Ret (Err ConversionSyntax, t)
       else d <- convert m t bs (mkscan (zlength (mantissa s ip pt fp) - match rest with [] => 1 | _ => 0 end)
              (zlength ip + zlength fp) (scan_dot s ip pt) (scan_last s ip fp) (scan_first s ip pt) (is_minus s)
              (match rest with [] => false | _ => true end)) frac digits hz ;; Ret (Ok tt, d)) in
     (exists d, within_limits (mknum s ip pt fp ex) /\ go = Ret (Ok tt, d) /\ parsed (mknum s ip pt fp ex) t d) \/
     (~ within_limits (mknum s ip pt fp ex) /\ (go = Ret (Err ConversionSyntax, t) \/ (m = Debug /\ 62 < zlength ip + zlength fp /\ go = Panic POverflow)))).
  { intros ex EX OK WE go. subst go. set (n := mknum s ip pt fp ex) in *.
    destruct (layout_ok m (zlength fp) (numeral_exp n) (zlength ip + zlength fp)) as [[W EL]|[W EL]]; [lia|lia|exact WE| |].
    - left. rewrite EL. mret. rewrite as_usize_id by lia.
      replace (Z.max (zlength ip + zlength fp + Z.max 0 (- (zlength fp - numeral_exp n))) (Z.max 0 (zlength fp - numeral_exp n)) >? MAX_DIGITS) with false by (unfold MAX_DIGITS; lia).
      assert (MID : exists pre mid post, bs = pre ++ mid ++ post /\ dotted mid (ip ++ fp) /\ scan_first s ip pt = zlength pre /\ scan_last s ip fp = zlength pre + zlength mid - 1).
      { unfold bs, mantissa, scan_first, scan_last. destruct fp as [|x fp].
        - rewrite app_nil_r in *. destruct ip as [|y ip]; [contradiction|].
          exists (sign_bytes s), (map digit_byte (y :: ip)), (point_bytes pt ++ rest). split; [change (map digit_byte []) with (@nil Z); rewrite ?app_nil_r, <- !app_assoc; cbn [app]; rewrite ?app_nil_r; reflexivity|].
          split; [rewrite ?app_nil_r; apply dotted_map; [exact FI|discriminate]|]. rewrite zlength_map. unfold opt_len. split; [destruct pt; lia | lia].
        - destruct pt; [|now specialize (P eq_refl)]. destruct ip as [|y ip].
          + exists (sign_bytes s ++ [46]), (map digit_byte (x :: fp)), rest. cbn [point_bytes]. split; [rewrite <- !app_assoc; reflexivity|].
            split; [apply dotted_map; [exact FF|discriminate]|]. rewrite zlength_map, zlength_app. unfold opt_len. change (zlength [46]) with 1. change (zlength (@nil Z)) with 0. lia.
          + exists (sign_bytes s), (map digit_byte (y :: ip) ++ 46 :: map digit_byte (x :: fp)), rest. cbn [point_bytes].
            split; [rewrite <- !app_assoc; reflexivity|]. split; [apply dotted_point; [exact FI|exact FF|discriminate]|].
            rewrite zlength_app, (zlength_cons _ 46), !zlength_map. unfold opt_len. lia. }
      destruct MID as (pre & mid & post & EB & DT & CF & LA).
      set (sc := mkscan _ _ _ _ _ _ _).
      destruct (convert_ok m t pre mid post (ip ++ fp) sc (zlength fp - numeral_exp n) UT LT DT CF LA) as (l' & EC & U' & L' & V & K).
      { rewrite zlength_app. exact W. }
      rewrite !zlength_app in EC, V, K. rewrite EB, EC. mret. eexists. split; [|split; [reflexivity|]].
      + split; [exact WE|]. unfold numeral_digits, numeral_frac. cbn [n_int n_frac n]. rewrite zlength_app.
        replace (numeral_exp n - zlength fp) with (- (zlength fp - numeral_exp n)) by lia. exact W.
      + assert (ND : numeral_digits n = Z.max (zlength ip + zlength fp + Z.max 0 (- (zlength fp - numeral_exp n))) (Z.max 0 (zlength fp - numeral_exp n))).
        { unfold numeral_digits, numeral_frac. cbn [n_int n_frac n]. rewrite zlength_app. f_equal. lia. }
        assert (NFr : numeral_frac n = Z.max 0 (zlength fp - numeral_exp n)) by reflexivity.
        rewrite <- ND, <- NFr in *. cbn [s_neg sc].
        apply (parsed_intro n t l' OK); try assumption. split; [exact WE | exact W].
    - right. split.
      { intros [_ W2]. unfold numeral_digits, numeral_frac in W2. cbn [n_int n_frac n] in W2. rewrite zlength_app in W2. lia. }
      destruct EL as [(f & g & h & EL & G)|(-> & H62 & EL)].
      + left. rewrite EL. mret. replace (as_usize g >? MAX_DIGITS) with true by lia. reflexivity.
      + right. split; [reflexivity|]. split; [exact H62|]. rewrite EL. reflexivity. }
  destruct rest as [|c rest].
  - (* no exponent *)
    mret.
    destruct (CORE None eq_refl) as [(d & W & G & PD)|(W & G)].
    + split; [exact FI|]. split; [exact FF|]. split; [exact EN|]. split; [exact P|]. exact I.
    + cbn. lia.
    + left. exists None, d. split; [reflexivity|]. split; [|split; [exact W|split; [exact G|exact PD]]].
      split; [exact FI|]. split; [exact FF|]. split; [exact EN|]. split; [exact P|]. exact I.
    + right. split.
      { intros n OK WN E. destruct (INJ n OK E) as (ex & -> & EX). destruct ex as [[[u sg] ds]|]; [discriminate|]. contradiction. }
      destruct G as [G|(-> & H62 & G)]; [left; exact G | right; split; [reflexivity|]; split; [left; exact H62|exact G]].
  - destruct (parse_exp_ok m (mantissa s ip pt fp) (c :: rest) ltac:(discriminate)) as (o & SP & EO). fold bs in EO.
    rewrite Z.sub_0_r. set (pe := parse_exp m bs (zlength (mantissa s ip pt fp))) in *.
    assert (HEAD : e_head (c :: rest) = false -> pe = Ret None).
    { intros H. unfold pe, parse_exp, bs. rewrite get_mid. mret. unfold ce, cE. cbn [e_head] in H.
      replace (negb (c =? 101) && negb (c =? 69)) with true by lia. reflexivity. }
    destruct EO as [EO|(-> & H11 & -> & EO)].
    2:{ rewrite EO. cbn [bind]. right. split.
        - intros n OK WN E. destruct (INJ n OK E) as (ex & -> & EX). destruct ex as [[[u sg] ds]|]; [|discriminate].
          destruct OK as (_ & _ & _ & _ & OF & ON). cbn [n_exp] in OF, ON.
          assert (X : None = Some (exp_value sg ds)); [|discriminate].
          apply SP. exists u, sg, ds. split; [symmetry; exact EX|]. split; [exact OF|]. split; [exact ON|]. split; [reflexivity|]. exact (proj1 WN).
        - right. split; [reflexivity|]. split; [|reflexivity]. right. split; [|exact H11].
          destruct (e_head (c :: rest)); [reflexivity|]. specialize (HEAD eq_refl). congruence. }
    rewrite EO. mret. destruct o as [e|].
    + destruct (proj1 (SP e) eq_refl) as (u & sg & ds & ER & FD & ND & EV & RG).
      set (ex := Some (u, sg, ds)).
      assert (NE2 : numeral_exp (mknum s ip pt fp ex) = e) by (rewrite EV; reflexivity).
      assert (OK : numeral_ok (mknum s ip pt fp ex)).
      { split; [exact FI|]. split; [exact FF|]. split; [exact EN|]. split; [exact P|]. split; [exact FD|exact ND]. }
      destruct (CORE ex ER OK ltac:(lia)) as [(d & W & G & PD)|(W & G)]; rewrite NE2, Z.sub_0_r in G.
      * left. exists ex, d. split; [exact ER|]. split; [exact OK|]. split; [exact W|]. split; [exact G|exact PD].
      * right. split.
        { intros n OK' WN E. destruct (INJ n OK' E) as (ex' & -> & EX). apply W.
          assert (ex' = ex) as ->; [|exact WN].
          destruct ex' as [[[u' sg'] ds']|]; [|discriminate]. rewrite ER in EX. cbn [expo_bytes] in EX. unfold exp_bytes in EX.
          inversion EX as [[E1 E2]]. destruct OK' as (_ & _ & _ & _ & OF & ON). cbn [n_exp] in OF, ON.
          destruct (sign_digits_inj sg' ds' (map digit_byte ds) sg ON OF E2) as [-> E3].
          { intros _. clear -FD. destruct FD as [|x ds Hx FD]; [exact I|]. cbn [map]. unfold is_digit, digit_byte in *. lia. }
          apply map_digit_inj in E3. subst ds'. unfold ex. destruct u, u'; try reflexivity; lia. }
        destruct G as [G|(-> & H62 & G)]; [left; exact G | right; split; [reflexivity|]; split; [left; exact H62|exact G]].
    + right. split; [|left; reflexivity].
      intros n OK WN E. destruct (INJ n OK E) as (ex & -> & EX). destruct ex as [[[u sg] ds]|]; [|discriminate].
      destruct OK as (_ & _ & _ & _ & OF & ON). cbn [n_exp] in OF, ON.
      assert (X : None = Some (exp_value sg ds)); [|discriminate].
      apply SP. exists u, sg, ds. split; [symmetry; exact EX|]. split; [exact OF|]. split; [exact ON|]. split; [reflexivity|]. exact (proj1 WN).
Qed.
