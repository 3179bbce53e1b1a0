(** * Parsing: what the theorems need, and round trips. *)
From Coq Require Import ZArith List Bool Lia QArith.
From Coq Require Import ZifyBool ZifyNat.
Import ListNotations.
From Verif Require Import Rust Tables Model_Base Model_Cmp Model_Decimal Model_Arith Model_Serde Spec Lib Cmp AddSub AddTo AddSubQ Basics QLib Digits Print Scan Parse ParseMain Witness.
Open Scope Z_scope.
Ltac Zify.zify_post_hook ::= Z.div_mod_to_equations.

Lemma before_exp_app a r : Forall (fun c => c <> 69 /\ c <> 101) a -> before_exp (a ++ r) = a ++ before_exp r.
Proof.
  induction 1 as [|c a Hc F IH]; [reflexivity|]. cbn [app before_exp].
  replace ((c =? 69) || (c =? 101)) with false by lia. f_equal. exact IH.
Qed.
Lemma mantissa_plain s ip pt fp : Forall is_digit ip -> Forall is_digit fp -> Forall (fun c => c <> 69 /\ c <> 101) (mantissa s ip pt fp).
Proof.
  intros FI FF.
  assert (D : forall l, Forall is_digit l -> Forall (fun c => c <> 69 /\ c <> 101) (map digit_byte l)).
  { intros l F. rewrite Forall_map. eapply Forall_impl; [|exact F]. intros x Hx. unfold is_digit, digit_byte in *. cbv beta. lia. }
  unfold mantissa. repeat (apply Forall_app; split).
  - destruct s as [[]|]; cbn; repeat constructor; lia.
  - apply D, FI.
  - destruct pt; cbn; repeat constructor; lia.
  - apply D, FF.
Qed.
Lemma count_app a b : count_digits (a ++ b) = count_digits a + count_digits b.
Proof. unfold count_digits. rewrite filter_app. apply zlength_app. Qed.
Lemma count_nonneg a : 0 <= count_digits a.
Proof. apply zlength_nonneg. Qed.
Lemma count_map l : Forall is_digit l -> count_digits (map digit_byte l) = zlength l.
Proof.
  induction 1 as [|x l Hx F IH]; [reflexivity|]. unfold count_digits in *. cbn [map filter].
  unfold is_digit in Hx. unfold digit_byte at 1 2. replace ((48 <=? 48 + x) && (48 + x <=? 57)) with true by lia.
  rewrite !zlength_cons. lia.
Qed.
Lemma count_mantissa s ip pt fp : Forall is_digit ip -> Forall is_digit fp -> count_digits (mantissa s ip pt fp) = zlength ip + zlength fp.
Proof.
  intros FI FF. unfold mantissa. rewrite !count_app, !count_map by assumption.
  destruct s as [[]|], pt; cbn; lia.
Qed.
Lemma mantissa_digits_ge s ip pt fp r : Forall is_digit ip -> Forall is_digit fp ->
  zlength ip + zlength fp <= mantissa_digits (mantissa s ip pt fp ++ r).
Proof.
  intros FI FF. unfold mantissa_digits. rewrite before_exp_app by (apply mantissa_plain; assumption).
  rewrite count_app, count_mantissa by assumption. pose proof (count_nonneg (before_exp r)). lia.
Qed.
Lemma exp_length_rest s ip pt fp r : Forall is_digit ip -> Forall is_digit fp -> e_head r = true ->
  exp_length (mantissa s ip pt fp ++ r) = zlength r.
Proof.
  intros FI FF H. unfold exp_length. rewrite before_exp_app by (apply mantissa_plain; assumption).
  destruct r as [|c r]; [discriminate|]. cbn [e_head] in H. cbn [before_exp]. rewrite H, app_nil_r, zlength_app. lia.
Qed.
Lemma numeral_mantissa_digits n : numeral_ok n -> mantissa_digits (numeral_bytes n) = zlength (n_int n ++ n_frac n).
Proof.
  intros (FI & FF & _). rewrite numeral_bytes_eq. unfold mantissa_digits. rewrite before_exp_app by (apply mantissa_plain; assumption).
  rewrite count_app, count_mantissa, zlength_app by assumption.
  replace (before_exp (expo_bytes (n_exp n))) with (@nil Z) by (destruct (n_exp n) as [[[[] sg] ds]|]; reflexivity). cbn. lia.
Qed.
Lemma numeral_exp_length n : numeral_ok n -> exp_length (numeral_bytes n) = zlength (expo_bytes (n_exp n)).
Proof.
  intros (FI & FF & _). rewrite numeral_bytes_eq. destruct (n_exp n) as [[[u sg] ds]|] eqn:E.
  - apply exp_length_rest; try assumption. destruct u; reflexivity.
  - cbn [expo_bytes]. unfold exp_length. rewrite before_exp_app by (apply mantissa_plain; assumption). cbn. lia.
Qed.

Definition tgt (reset : bool) (self : fd) : fd := if reset then set_zero self else self.

(** The three outcomes. *)
Lemma parse_cases m self reset bs : wf self -> mantissa_digits bs <= 127 ->
  (exists n d, bs = numeral_bytes n /\ numeral_ok n /\ within_limits n /\
     from_bytes_str m self bs reset = Ret (Ok tt, d) /\ parsed n (tgt reset self) d) \/
  ((forall n, numeral_ok n -> within_limits n -> numeral_bytes n <> bs) /\
   (from_bytes_str m self bs reset = Ret (Err ConversionSyntax, tgt reset self) \/
    (m = Debug /\ (62 < mantissa_digits bs \/ 11 <= exp_length bs) /\
     from_bytes_str m self bs reset = Panic POverflow))).
Proof.
  intros W MD. destruct (decompose bs) as (s & ip & pt & fp & rest & -> & FI & FF & P & ST).
  pose proof (mantissa_digits_ge s ip pt fp rest FI FF) as G.
  destruct (parse_main m self reset s ip pt fp rest (wf_uok _ W) (wf_zlen _ W) FI FF P ST ltac:(lia)) as [(ex & d & ER & OK & WL & E & PD)|(N & H)].
  - left. exists (mknum s ip pt fp ex), d. split; [rewrite numeral_bytes_eq, ER; reflexivity|].
    split; [exact OK|]. split; [exact WL|]. split; [exact E|exact PD].
  - right. split; [exact N|]. destruct H as [H|(-> & H & E)]; [left; exact H|]. right. split; [reflexivity|]. split; [|exact E].
    destruct H as [H|[H1 H2]]; [left; lia|]. right. rewrite exp_length_rest by assumption. exact H2.
Qed.

Lemma parse_accepts m self reset n : wf self -> numeral_ok n -> within_limits n ->
  exists d, from_bytes_str m self (numeral_bytes n) reset = Ret (Ok tt, d) /\ parsed n (tgt reset self) d.
Proof.
  intros W OK WL. assert (MD : mantissa_digits (numeral_bytes n) <= 127).
  { rewrite numeral_mantissa_digits by exact OK. destruct WL as [_ WL]. unfold numeral_digits in WL. lia. }
  destruct (parse_cases m self reset (numeral_bytes n) W MD) as [(n' & d & EB & OK' & WL' & E & PD)|(N & _)].
  2:{ exfalso. exact (N n OK WL eq_refl). }
  exists d. split; [exact E|]. assert (n = n') as ->; [|exact PD].
  destruct OK' as (FI & FF & O3 & P & OE). rewrite (numeral_bytes_eq n') in EB.
  destruct (numeral_inj n _ _ _ _ _ OK FI FF P (expo_stuck _ _ _ _ _) EB) as (E1 & E2 & E3 & E4 & E5).
  destruct n as [s i p f e], n' as [s' i' p' f' e']. cbn in *. subst. f_equal.
  destruct OK as (_ & _ & _ & _ & OE1). cbn in OE1. destruct e as [[[u sg] ds]|], e' as [[[u' sg'] ds']|]; try discriminate; [|reflexivity].
  cbn in E5. unfold exp_bytes in E5. inversion E5 as [[H1 H2]].
  destruct OE1 as [F1 N1]. destruct OE as [F2 N2].
  destruct (sign_digits_inj sg ds (map digit_byte ds') sg' N1 F1 H2) as [-> H3].
  { intros _. destruct F2 as [|x l Hx F2]; [exact I|]. cbn [map]. unfold is_digit, digit_byte in *. lia. }
  apply map_digit_inj in H3. subst. destruct u, u'; try reflexivity; lia.
Qed.

Lemma parse_sound m self reset bs d : wf self -> mantissa_digits bs <= 127 ->
  from_bytes_str m self bs reset = Ret (Ok tt, d) ->
  exists n, bs = numeral_bytes n /\ numeral_ok n /\ within_limits n /\ parsed n (tgt reset self) d.
Proof.
  intros W MD E. destruct (parse_cases m self reset bs W MD) as [(n & d' & EB & OK & WL & E' & PD)|(_ & [E'|(_ & _ & E')])]; rewrite E in E'.
  - inversion E'; subst d'. exists n. split; [exact EB|]. split; [exact OK|]. split; [exact WL|exact PD].
  - discriminate.
  - discriminate.
Qed.

Lemma parsed_clean n t d : parsed n t d -> (forall k, 0 <= k -> zn (fd_lsu t) k = 0) -> clean d.
Proof.
  intros PD H. unfold clean. pose proof (wf_counts d (p_wf _ _ _ PD)) as WC. apply Forall_forall. intros x Hx.
  apply (In_nth _ _ 0) in Hx. destruct Hx as (j & Hj & <-).
  assert (E := zn_skipn (fd_lsu d) (Z.to_nat (iu d + fu d)) (Z.of_nat j) ltac:(lia)).
  unfold zn at 1 in E. rewrite Nat2Z.id in E. rewrite E. rewrite (p_rest _ _ _ PD) by lia. apply H. lia.
Qed.
Lemma zero_units_0 k : zn zero_units k = 0.
Proof. exact (zn_repeat0 9 k). Qed.

Lemma wf_zero : wf zero.
Proof. apply wfb_wf. vm_compute. reflexivity. Qed.

Lemma from_str_eq m bs : from_str m bs = ('(r, d) <- from_bytes_str m zero bs true ;; match r with Ok _ => Ret (Ok d) | Err e => Ret (Err e) end).
Proof. reflexivity. Qed.

Lemma from_str_accepts m n : numeral_ok n -> within_limits n ->
  exists d, from_str m (numeral_bytes n) = Ret (Ok d) /\ parsed n zero d /\ clean d.
Proof.
  intros OK WL. destruct (parse_accepts m zero true n wf_zero OK WL) as (d & E & PD).
  exists d. split; [rewrite from_str_eq, E; reflexivity|]. split; [exact PD|].
  eapply parsed_clean; [exact PD|]. intros k _. apply zero_units_0.
Qed.
Lemma from_str_sound m bs d : mantissa_digits bs <= 127 -> from_str m bs = Ret (Ok d) ->
  exists n, bs = numeral_bytes n /\ numeral_ok n /\ within_limits n /\ parsed n zero d /\ clean d.
Proof.
  intros MD E. rewrite from_str_eq in E. apply bind_inv in E. destruct E as ([r d'] & E1 & E2). cbv beta iota in E2.
  destruct r as [[]|e]; inversion E2; subst d'.
  destruct (parse_sound m zero true bs d wf_zero MD E1) as (n & EB & OK & WL & PD).
  exists n. split; [exact EB|]. split; [exact OK|]. split; [exact WL|]. split; [exact PD|].
  eapply parsed_clean; [exact PD|]. intros k _. apply zero_units_0.
Qed.

(** A failed parse leaves the target alone. *)
Lemma parse_err m self reset bs e d : from_bytes_str m self bs reset = Ret (Err e, d) -> e = ConversionSyntax /\ d = tgt reset self.
Proof.
  unfold from_bytes_str. fold (tgt reset self). destruct bs as [|c bs]; [intros [= <- <-]; auto|].
  intros H. apply bind_inv in H. destruct H as (s & _ & H).
  destruct (s_last s =? -1); [injection H as <- <-; auto|].
  apply bind_inv in H. destruct H as (ex & _ & H). destruct ex as [ex|]; [|injection H as <- <-; auto].
  apply bind_inv in H. destruct H as ([[f g] h] & _ & H). cbv beta iota in H.
  destruct (as_usize g >? MAX_DIGITS); [injection H as <- <-; auto|].
  apply bind_inv in H. destruct H as (x & _ & H). discriminate.
Qed.

(** The digit limit, for strings of every length. *)
Lemma chk_range m lo hi z x : lo <= hi -> chk m lo hi z = Ret x -> lo <= x <= hi.
Proof.
  intros H. unfold chk. destruct (_ && _) eqn:E; [intros [= <-]; lia|]. destruct m; [discriminate|]. intros [= <-].
  pose proof (Z.mod_pos_bound (z - lo) (hi - lo + 1) ltac:(lia)). lia.
Qed.
Lemma i8_range m z x : i8 m z = Ret x -> -128 <= x <= 127.
Proof. apply chk_range. lia. Qed.
Lemma layout_digits m F e d f g h : layout m F e d = Ret (f, g, h) -> as_usize g <= MAX_DIGITS -> -128 <= d <= 127 -> 0 <= f <= g /\ g <= 65.
Proof.
  unfold layout. intros H G D. apply bind_inv in H. destruct H as (r & ER & H). apply i8_range in ER. unfold MAX_DIGITS, as_usize in G.
  destruct (Z.compare_spec r 0) as [C|C|C].
  - inversion H; subst. lia.
  - apply bind_inv in H. destruct H as (g' & EG & H). inversion H; subst. apply i8_range in EG. lia.
  - destruct (d >? r) eqn:Q; [inversion H; subst; lia|]. apply bind_inv in H. destruct H as (hz & EH & H). inversion H; subst. lia.
Qed.
Lemma scan_range m bs i d dot last cf ng s : scan_loop m bs i d dot last cf ng = Ret s -> -128 <= d <= 127 -> -128 <= s_d s <= 127.
Proof.
  revert i d dot last cf ng. induction bs as [|c bs IH]; intros i d dot last cf ng H R; cbn [scan_loop] in H.
  - inversion H; subst. exact R.
  - destruct (_ && _).
    { apply bind_inv in H. destruct H as (d' & E & H). apply i8_range in E. exact (IH _ _ _ _ _ _ H E). }
    destruct (_ && _); [exact (IH _ _ _ _ _ _ H R)|].
    destruct (_ && _); [exact (IH _ _ _ _ _ _ H R)|].
    destruct (_ && _); [exact (IH _ _ _ _ _ _ H R)|]. inversion H; subst. exact R.
Qed.
Lemma parse_digits m self reset bs d : from_bytes_str m self bs reset = Ret (Ok tt, d) -> int_digits d + frac_digits d <= 65.
Proof.
  unfold from_bytes_str. fold (tgt reset self). destruct bs as [|c bs]; [discriminate|].
  intros H. apply bind_inv in H. destruct H as (s & ES & H). apply scan_range in ES; [|lia].
  destruct (s_last s =? -1); [discriminate|].
  apply bind_inv in H. destruct H as (ex & _ & H). destruct ex as [ex|]; [|discriminate].
  apply bind_inv in H. destruct H as ([[f g] h] & EL & H). cbv beta iota in H.
  destruct (as_usize g >? MAX_DIGITS) eqn:G; [discriminate|].
  destruct (layout_digits _ _ _ _ _ _ _ EL ltac:(lia) ES) as [L1 L2].
  apply bind_inv in H. destruct H as (x & EC & H). inversion H; subst x. clear H.
  unfold convert in EC. do 4 (apply bind_inv in EC; destruct EC as (? & ? & EC)). cbv zeta in EC.
  apply bind_inv in EC. destruct EC as ([[l1 up] i] & ? & EC). cbv beta iota in EC.
  apply bind_inv in EC. destruct EC as (l2 & ? & EC).
  apply bind_inv in EC. destruct EC as (ig & EI & EC). rewrite i8_ok in EI by lia. inversion EI; subst ig. inversion EC.
  destruct (signed_facts (s_neg s) (g - f) f l2 ltac:(lia)) as (_ & S2 & S3 & _). unfold signed in S2, S3. rewrite S2, S3. lia.
Qed.

(** Parsing over an arbitrary target: same number, same declared digits. *)
Lemma parse_targets m t1 t2 bs d : wf t1 -> wf t2 -> mantissa_digits bs <= 127 ->
  from_bytes_str m t1 bs false = Ret (Ok tt, d) ->
  exists d', from_bytes_str m t2 bs false = Ret (Ok tt, d') /\ (value d' == value d)%Q /\ neg d' = neg d /\
    int_digits d' = int_digits d /\ frac_digits d' = frac_digits d.
Proof.
  intros W1 W2 MD E. destruct (parse_sound _ _ _ _ _ W1 MD E) as (n & -> & OK & WL & PD).
  destruct (parse_accepts m t2 false n W2 OK WL) as (d' & E' & PD'). exists d'. split; [exact E'|].
  destruct PD as [_ V N F I _ _ _], PD' as [_ V' N' F' I' _ _ _]. rewrite V, V', N, N', F, F', I, I'. repeat split; reflexivity.
Qed.

(** ** Round trips *)
Lemma canonical_digits n : canonical n -> numeral_exp n = 0 /\ numeral_digits n = zlength (n_int n ++ n_frac n) /\ numeral_frac n = zlength (n_frac n).
Proof.
  intros (OK & _ & EX & _). unfold numeral_digits, numeral_frac, numeral_exp. rewrite EX.
  rewrite zlength_app. pose proof (zlength_nonneg _ (n_frac n)). pose proof (zlength_nonneg _ (n_int n)). lia.
Qed.

Lemma print_parse m d s : wf d -> nohidden d -> to_string m d (-1) = Ret s -> mantissa_digits s <= 65 ->
  exists d', from_str m s = Ret (Ok d') /\ wf d' /\ clean d' /\ tight d' /\ nohidden d' /\
    (value d' == value d)%Q /\ neg d' = neg d /\ frac_digits d' = frac_digits d.
Proof.
  intros W N E MD. destruct (to_string_ok m d (-1) W) as (n & EN & C & S & F & V).
  change (-1 <? 0) with true in *. cbv iota in F, V. rewrite E in EN. inversion EN; subst s. clear EN.
  destruct (canonical_digits n C) as (X1 & X2 & X3). assert (OK := proj1 C).
  rewrite numeral_mantissa_digits in MD by exact OK.
  destruct (from_str_accepts m n OK) as (d' & E' & PD & CL).
  { split; [rewrite X1; lia|]. rewrite X2. exact MD. }
  exists d'. split; [exact E'|]. destruct PD as [PW PV PN PF PI PT PH PR]. split; [exact PW|]. split; [exact CL|]. split; [exact PT|]. split; [exact PH|].
  split; [|split; [congruence|]].
  - rewrite PV, V. apply nohidden_truncate; [exact W|exact N|]. lia.
  - rewrite PF, X3. exact F.
Qed.

Lemma to_string_printed m d : wf d -> to_string m d (-1) = Ret (numeral_bytes (printed d (frac_digits d))).
Proof. intros W. unfold to_string. rewrite append_str_ok by exact W. reflexivity. Qed.

Lemma strip_dig_len w k n : (k <= w)%nat -> 0 <= n < 10 ^ Z.of_nat k -> (length (strip (dig w n)) <= k)%nat.
Proof.
  intros H B. replace w with ((w - k) + k)%nat by lia. rewrite dig_split, Z.div_small by exact B. rewrite dig_0, strip_app, strip_repeat0.
  pose proof (strip_len (dig k n)). rewrite dig_length in *. lia.
Qed.
Lemma printed_len m d s : wf d -> tight d -> to_string m d (-1) = Ret s ->
  mantissa_digits s <= Z.max 1 (int_digits d) + frac_digits d.
Proof.
  intros W T E. rewrite to_string_printed in E by exact W. inversion E; subst s. clear E. pose proof (wf_counts d W) as WC.
  pose proof (printed_canonical d (frac_digits d) W ltac:(lia)) as C.
  rewrite numeral_mantissa_digits by apply C. rewrite zlength_app, printed_frac by lia.
  enough (zlength (n_int (printed d (frac_digits d))) <= Z.max 1 (int_digits d)) by lia.
  unfold printed. cbn [n_int]. rewrite mant_int by (try exact W; lia).
  assert (B : 0 <= sg (fd_lsu d) (fu d) (iu d) < 10 ^ int_digits d).
  { split; [apply sg_nonneg, wf_uok, W|]. unfold tight in T. rewrite magnitude_sg in T. rewrite Z.add_comm, sg_app in T by lia.
    pose proof (sg_nonneg (fd_lsu d) 0 (fu d) (wf_uok d W)). pose proof (pow_base_pos (fu d) ltac:(lia)).
    rewrite Z.add_0_l in T. nia. }
  unfold int_numeral. pose proof (strip_dig_len (9 * Z.to_nat (iu d)) (Z.to_nat (int_digits d)) (sg (fd_lsu d) (fu d) (iu d))) as SL.
  rewrite Z2Nat.id in SL by lia. specialize (SL ltac:(unfold iu, units_for; lia) B).
  destruct (strip _) as [|x l]; [cbn; lia|]. unfold zlength. lia.
Qed.

Lemma parse_print m n : numeral_ok n -> within_limits n ->
  exists d n', from_str m (numeral_bytes n) = Ret (Ok d) /\ to_string m d (-1) = Ret (numeral_bytes n') /\ canonical n' /\
    is_minus (n_sign n') = is_minus (n_sign n) /\ zlength (n_frac n') = numeral_frac n /\ (numeral_value n' == numeral_value n)%Q.
Proof.
  intros OK WL. destruct (from_str_accepts m n OK WL) as (d & E & PD & _). destruct PD as [PW PV PN PF PI PT PH PR].
  destruct (to_string_ok m d (-1) PW) as (n' & E' & C & S & F & V). change (-1 <? 0) with true in *. cbv iota in F, V.
  exists d, n'. split; [exact E|]. split; [exact E'|]. split; [exact C|]. split; [congruence|]. split; [congruence|].
  rewrite V, <- PV. apply nohidden_truncate; [exact PW|exact PH|lia].
Qed.
Lemma parse_print_plain m n : numeral_ok n -> n_exp n = None -> zlength (n_int n ++ n_frac n) <= 65 ->
  exists d n', from_str m (numeral_bytes n) = Ret (Ok d) /\ to_string m d (-1) = Ret (numeral_bytes n') /\ canonical n' /\
    is_minus (n_sign n') = is_minus (n_sign n) /\ n_frac n' = n_frac n /\ digits_value (n_int n') = digits_value (n_int n) /\
    (canonical n -> n' = n).
Proof.
  intros OK EX LN.
  assert (X : numeral_exp n = 0 /\ numeral_digits n = zlength (n_int n ++ n_frac n) /\ numeral_frac n = zlength (n_frac n)).
  { unfold numeral_digits, numeral_frac, numeral_exp. rewrite EX.
    rewrite zlength_app. pose proof (zlength_nonneg _ (n_frac n)). pose proof (zlength_nonneg _ (n_int n)). lia. }
  destruct X as (X1 & X2 & X3).
  destruct (parse_print m n OK) as (d & n' & E & E' & C & S & F & V); [split; lia|].
  exists d, n'. split; [exact E|]. split; [exact E'|]. split; [exact C|]. split; [exact S|].
  assert (EQ : digits_value (n_int n' ++ n_frac n') = digits_value (n_int n ++ n_frac n)).
  { destruct (canonical_digits n' C) as (Y1 & _ & _). unfold numeral_value in V. rewrite X1, Y1, S, F, X3 in V.
    apply Qmult_inj_r in V; [|intros K; pose proof (pow10_pos (0 - zlength (n_frac n))) as PP; rewrite K in PP; exact (Qlt_irrefl _ PP)].
    destruct (is_minus (n_sign n)); [apply Qopp_comp in V; rewrite !Qopp_involutive in V|]; apply inject_Z_injective; exact V. }
  rewrite X3 in F.
  destruct (digits_split (n_int n') (n_frac n') (n_int n) (n_frac n)) as [D1 D2]; [apply C|apply OK|unfold zlength in F; lia|exact EQ|].
  split; [exact D2|]. split; [exact D1|].
  intros CN. apply canonical_unique; try assumption. 
Qed.

(** ** End to end *)
Lemma within_plain n a b : numeral_ok n -> n_exp n = None -> zlength (n_int n) <= a -> zlength (n_frac n) <= b -> a + b <= 65 -> within_limits n /\
  numeral_frac n = zlength (n_frac n) /\ numeral_digits n = zlength (n_int n) + zlength (n_frac n).
Proof.
  intros OK EX A B AB. unfold within_limits, numeral_digits, numeral_frac, numeral_exp. rewrite EX, zlength_app.
  pose proof (zlength_nonneg _ (n_frac n)). pose proof (zlength_nonneg _ (n_int n)). lia.
Qed.

Lemma tight_abs d : wf d -> tight d -> (Qabs.Qabs (value d) < inject_Z (10 ^ int_digits d))%Q.
Proof.
  intros W T. pose proof (wf_counts d W) as WC. pose proof (magnitude_nonneg d W) as MN.
  rewrite value_smag by exact W.
  assert (EA : (Qabs.Qabs (inject_Z (smag d) * pow10 (- (9 * fu d))) == inject_Z (magnitude d) * pow10 (- (9 * fu d)))%Q).
  { rewrite Qabs.Qabs_Qmult. apply Qmult_comp.
    - unfold smag. destruct (neg d).
      + rewrite inject_Z_opp, Qabs.Qabs_opp. apply Qabs.Qabs_pos. change (inject_Z 0 <= inject_Z (magnitude d))%Q. rewrite <- Zle_Qle. exact MN.
      + apply Qabs.Qabs_pos. change (inject_Z 0 <= inject_Z (magnitude d))%Q. rewrite <- Zle_Qle. exact MN.
    - apply Qabs.Qabs_pos. apply Qlt_le_weak, pow10_pos. }
  rewrite EA. unfold tight in T. rewrite <- pow_base in T by lia.
  apply Qlt_le_trans with (inject_Z (10 ^ int_digits d * 10 ^ (9 * fu d)) * pow10 (- (9 * fu d)))%Q.
  - apply Qmult_lt_compat_r; [apply pow10_pos|]. rewrite <- Zlt_Qlt. exact T.
  - rewrite inject_Z_mult, <- (pow10_nonneg (9 * fu d)) by lia. rewrite <- Qmult_assoc, (Qmult_comm (pow10 (9 * fu d))), pow10_inv, Qmult_1_r. apply Qle_refl.
Qed.

Lemma end_to_end_room a b : wf a -> wf b -> tight a -> tight b -> int_digits a <= 30 -> int_digits b <= 30 -> frac_digits a <= 30 -> frac_digits b <= 30 ->
  let n := Z.max (iu a) (iu b) + Z.max (fu a) (fu b) in
  n <= 8 /\ (n <= 7 \/ (Qabs.Qabs (value a) + Qabs.Qabs (value b) < inject_Z (base ^ Z.max (iu a) (iu b)))%Q).
Proof.
  intros WA WB TA TB IA IB FA FB n. pose proof (wf_counts a WA). pose proof (wf_counts b WB).
  assert (iu a <= 4 /\ iu b <= 4 /\ fu a <= 4 /\ fu b <= 4) as (A1 & A2 & A3 & A4) by (unfold iu, fu, units_for; lia).
  split; [lia|]. destruct (Z_le_dec n 7) as [L|L]; [left; exact L|right].
  assert (Z.max (iu a) (iu b) = 4) as -> by lia.
  apply Qlt_trans with (inject_Z (10 ^ int_digits a) + inject_Z (10 ^ int_digits b))%Q.
  - apply Qplus_lt_le_compat; [apply tight_abs; assumption | apply Qlt_le_weak, tight_abs; assumption].
  - rewrite <- inject_Z_plus, <- Zlt_Qlt.
    assert (10 ^ int_digits a <= 10 ^ 30) by (apply Z.pow_le_mono_r; lia).
    assert (10 ^ int_digits b <= 10 ^ 30) by (apply Z.pow_le_mono_r; lia).
    apply Z.le_lt_trans with (10 ^ 30 + 10 ^ 30); [lia|reflexivity].
Qed.

Definition plain n := numeral_ok n /\ n_exp n = None /\ zlength (n_int n) <= 30 /\ zlength (n_frac n) <= 30.

Lemma parse_plain m n : plain n -> exists d, from_str m (numeral_bytes n) = Ret (Ok d) /\ wf d /\ clean d /\ tight d /\ nohidden d /\
  (value d == numeral_value n)%Q /\ int_digits d <= 30 /\ frac_digits d = zlength (n_frac n).
Proof.
  intros (OK & EX & LI & LF). destruct (within_plain n 30 30 OK EX LI LF ltac:(lia)) as (WL & NF & ND).
  destruct (from_str_accepts m n OK WL) as (d & E & [PW PV PN PF PI PT PH PR] & CL).
  exists d. split; [exact E|]. split; [exact PW|]. split; [exact CL|]. split; [exact PT|]. split; [exact PH|]. split; [exact PV|]. lia.
Qed.

Lemma print_exact m d : wf d -> nohidden d -> exists n, to_string m d (-1) = Ret (numeral_bytes n) /\ canonical n /\
  zlength (n_frac n) = frac_digits d /\ (numeral_value n == value d)%Q.
Proof.
  intros W N. destruct (to_string_ok m d (-1) W) as (n & E & C & S & F & V). change (-1 <? 0) with true in *. cbv iota in F, V.
  exists n. split; [exact E|]. split; [exact C|]. split; [exact F|]. rewrite V. apply nohidden_truncate; [exact W|exact N|lia].
Qed.

Lemma end_to_end_add m s t : plain s -> plain t ->
  exists a b r n, from_str m (numeral_bytes s) = Ret (Ok a) /\ from_str m (numeral_bytes t) = Ret (Ok b) /\
    add_to m a b zero = Ret (Ok tt, r) /\ to_string m r (-1) = Ret (numeral_bytes n) /\ canonical n /\
    (numeral_value n == numeral_value s + numeral_value t)%Q /\
    (~ (numeral_value s == 0)%Q -> ~ (numeral_value t == 0)%Q -> zlength (n_frac n) = Z.max (zlength (n_frac s)) (zlength (n_frac t))).
Proof.
  intros PS PT. destruct (parse_plain m s PS) as (a & EA & WA & CA & TA & NA & VA & IA & FA).
  destruct (parse_plain m t PT) as (b & EB & WB & CB & TB & NB & VB & IB & FB).
  assert (LA : zlength (n_frac s) <= 30) by apply PS. assert (LB : zlength (n_frac t) <= 30) by apply PT.
  destruct (end_to_end_room a b WA WB TA TB IA IB ltac:(lia) ltac:(lia)) as [R1 R2].
  destruct (proj2 (add_returns m a b zero WA WB CA CB)) as [[rs r] ER].
  { right. right. split; [exact R1|]. right. exact R2. }
  destruct (add_exact m a b zero rs r WA WB ER) as (-> & WR & VR & FR).
  destruct (add_keeps m a b zero (Ok tt) r WA WB ER) as (_ & _ & NR).
  destruct (print_exact m r WR (NR NA NB)) as (n & EN & C & FN & VN).
  exists a, b, r, n. split; [exact EA|]. split; [exact EB|]. split; [exact ER|]. split; [exact EN|]. split; [exact C|].
  split; [rewrite VN, VR, VA, VB; reflexivity|]. intros ZS ZT. rewrite FN, FR, FA, FB; [reflexivity| |]; [rewrite VA|rewrite VB]; assumption.
Qed.
Lemma end_to_end_sub m s t : plain s -> plain t ->
  exists a b r n, from_str m (numeral_bytes s) = Ret (Ok a) /\ from_str m (numeral_bytes t) = Ret (Ok b) /\
    sub_to m a b zero = Ret (Ok tt, r) /\ to_string m r (-1) = Ret (numeral_bytes n) /\ canonical n /\
    (numeral_value n == numeral_value s - numeral_value t)%Q /\
    (~ (numeral_value s == 0)%Q -> ~ (numeral_value t == 0)%Q -> zlength (n_frac n) = Z.max (zlength (n_frac s)) (zlength (n_frac t))).
Proof.
  intros PS PT. destruct (parse_plain m s PS) as (a & EA & WA & CA & TA & NA & VA & IA & FA).
  destruct (parse_plain m t PT) as (b & EB & WB & CB & TB & NB & VB & IB & FB).
  assert (LA : zlength (n_frac s) <= 30) by apply PS. assert (LB : zlength (n_frac t) <= 30) by apply PT.
  destruct (end_to_end_room a b WA WB TA TB IA IB ltac:(lia) ltac:(lia)) as [R1 R2].
  destruct (proj2 (sub_returns m a b zero WA WB CA CB)) as [[rs r] ER].
  { right. right. split; [exact R1|]. right. exact R2. }
  destruct (sub_exact m a b zero rs r WA WB ER) as (-> & WR & VR & FR).
  destruct (sub_keeps m a b zero (Ok tt) r WA WB ER) as (_ & _ & NR).
  destruct (print_exact m r WR (NR NA NB)) as (n & EN & C & FN & VN).
  exists a, b, r, n. split; [exact EA|]. split; [exact EB|]. split; [exact ER|]. split; [exact EN|]. split; [exact C|].
  split; [rewrite VN, VR, VA, VB; reflexivity|]. intros ZS ZT. rewrite FN, FR, FA, FB; [reflexivity| |]; [rewrite VA|rewrite VB]; assumption.
Qed.

Lemma print_parse_eq m d s : wf d -> nohidden d -> to_string m d (-1) = Ret s -> mantissa_digits s <= 65 ->
  exists d', from_str m s = Ret (Ok d') /\ (value d' == value d)%Q /\ neg d' = neg d /\ frac_digits d' = frac_digits d /\
    cmp m d' d = Ret Eq /\ eq m d' d = Ret true.
Proof.
  intros W N E MD. destruct (print_parse m d s W N E MD) as (d' & E' & W' & _ & _ & _ & V & S & F).
  exists d'. split; [exact E'|]. split; [exact V|]. split; [exact S|]. split; [exact F|].
  split.
  - rewrite cmp_numeric by assumption. rewrite (proj1 (Qeq_alt _ _) V), S. destruct (neg d); reflexivity.
  - destruct (eq_iff m d' d W' W) as (r & Er & H). rewrite Er. f_equal. apply H. split; assumption.
Qed.
