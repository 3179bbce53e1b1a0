(** * Parsing, first half: the syntax (scan and exponent). *)
From Coq Require Import ZArith List Bool Lia.
From Coq Require Import ZifyBool ZifyNat.
Import ListNotations.
From Verif Require Import Rust Tables Model_Base Model_Serde Spec Lib AddSub Digits.
Open Scope Z_scope.
Ltac Zify.zify_post_hook ::= Z.div_mod_to_equations.

Lemma zlength_app A (a b : list A) : zlength (a ++ b) = zlength a + zlength b.
Proof. unfold zlength. rewrite app_length. lia. Qed.
Lemma zlength_cons A x (a : list A) : zlength (x :: a) = 1 + zlength a.
Proof. unfold zlength. cbn [length]. lia. Qed.
Lemma zlength_nil A : zlength (@nil A) = 0. Proof. reflexivity. Qed.
Lemma zlength_map A B (f : A -> B) l : zlength (map f l) = zlength l.
Proof. unfold zlength. now rewrite map_length. Qed.
Lemma zlength_nonneg A (l : list A) : 0 <= zlength l. Proof. unfold zlength. lia. Qed.
Lemma zlength_0 A (l : list A) : zlength l = 0 -> l = [].
Proof. destruct l; [reflexivity|]. rewrite zlength_cons. pose proof (zlength_nonneg A l). lia. Qed.
Lemma zlen_zlength l : zlen l = zlength l. Proof. reflexivity. Qed.

(** The mantissa: sign, integral digits, point, fractional digits. *)
Definition point_bytes (pt : bool) : list Z := if pt then [46] else [].
Definition mantissa (s : option bool) (ip : list Z) (pt : bool) (fp : list Z) : list Z :=
  sign_bytes s ++ map digit_byte ip ++ point_bytes pt ++ map digit_byte fp.

(** A byte at which the scan stops after the mantissa. *)
Definition stop_byte (s : option bool) (ip : list Z) (pt : bool) (fp : list Z) (c : Z) : Prop :=
  ~ (48 <= c <= 57) /\ (pt = false -> c <> 46)
  /\ (s = None -> ip = [] -> pt = false -> fp = [] -> c <> 45 /\ c <> 43).
Definition stuck s ip pt fp (rest : list Z) : Prop :=
  match rest with [] => True | c :: _ => stop_byte s ip pt fp c end.

Lemma split_digits bs : exists ds rest, bs = map digit_byte ds ++ rest /\ Forall is_digit ds /\
  match rest with [] => True | c :: _ => ~ (48 <= c <= 57) end.
Proof.
  induction bs as [|c bs (ds & rest & E & F & R)].
  - exists [], []. repeat split. constructor.
  - destruct (Z_le_dec 48 c) as [H1|H1]; [destruct (Z_le_dec c 57) as [H2|H2]|].
    + exists ((c - 48) :: ds), rest. split; [|split; [constructor; [unfold is_digit; lia | exact F] | exact R]].
      cbn [map app]. rewrite <- E. f_equal. unfold digit_byte. lia.
    + exists [], (c :: bs). repeat split; [constructor | lia].
    + exists [], (c :: bs). repeat split; [constructor | lia].
Qed.

(** Every byte string is a mantissa followed by bytes the scan does not take. *)
Lemma decompose bs : exists s ip pt fp rest, bs = mantissa s ip pt fp ++ rest /\
  Forall is_digit ip /\ Forall is_digit fp /\ (pt = false -> fp = []) /\ stuck s ip pt fp rest.
Proof.
  assert (S : exists s bs', bs = sign_bytes s ++ bs' /\ (s = None -> match bs' with [] => True | c :: _ => c <> 45 /\ c <> 43 end)).
  { destruct bs as [|c bs]; [exists None, []; split; [reflexivity|trivial]|].
    destruct (Z.eq_dec c 45) as [->|H1]; [exists (Some true), bs; split; [reflexivity | discriminate]|].
    destruct (Z.eq_dec c 43) as [->|H2]; [exists (Some false), bs; split; [reflexivity | discriminate]|].
    exists None, (c :: bs). split; [reflexivity | tauto]. }
  destruct S as (s & bs1 & -> & HS).
  destruct (split_digits bs1) as (ip & bs2 & -> & FI & R2).
  destruct bs2 as [|c bs2].
  - exists s, ip, false, [], []. unfold mantissa. cbn [point_bytes map app]. rewrite !app_nil_r.
    repeat split; [exact FI | constructor].
  - destruct (Z.eq_dec c 46) as [->|Hc].
    + destruct (split_digits bs2) as (fp & rest & -> & FF & R3).
      exists s, ip, true, fp, rest. unfold mantissa. cbn [point_bytes]. rewrite <- !app_assoc. cbn [app].
      repeat split; try assumption; [discriminate|]. destruct rest; cbn; [trivial|]. repeat split; [assumption|discriminate|discriminate|discriminate].
    + exists s, ip, false, [], (c :: bs2). unfold mantissa. cbn [point_bytes map app]. rewrite !app_nil_r, <- app_assoc.
      split; [reflexivity|]. split; [exact FI|]. split; [constructor|]. split; [reflexivity|]. cbn [stuck].
      split; [exact R2|]. split; [intros _; exact Hc|].
      intros -> -> _ _. exact (HS eq_refl).
Qed.

Lemma scan_digits m ds rest i d dot last cf ng : Forall is_digit ds -> 0 <= d -> d + zlength ds <= 127 ->
  scan_loop m (map digit_byte ds ++ rest) i d dot last cf ng =
  scan_loop m rest (i + zlength ds) (d + zlength ds) dot (match ds with [] => last | _ => i + zlength ds end) cf ng.
Proof.
  intros F. revert i d last. induction F as [|x ds Hx F IH]; intros i d last Hd HD.
  - cbn [map app]. rewrite zlength_nil, !Z.add_0_r. reflexivity.
  - cbn [map app scan_loop]. rewrite zlength_cons in *. pose proof (zlength_nonneg _ ds).
    unfold is_digit in Hx. unfold c0, c9, digit_byte.
    replace ((48 + x >=? 48) && (48 + x <=? 57)) with true by lia. rewrite i8_ok by lia. mret.
    change (map (fun x => 48 + x) ds) with (map digit_byte ds). rewrite IH by lia.
    replace (i + 1 + zlength ds) with (i + (1 + zlength ds)) by lia.
    replace (d + 1 + zlength ds) with (d + (1 + zlength ds)) by lia.
    destruct ds; [rewrite zlength_nil; replace (i + 1) with (i + (1 + 0)) by lia; reflexivity | reflexivity].
Qed.

Definition opt_len (s : option bool) : Z := zlength (sign_bytes s).
Lemma opt_len_range s : 0 <= opt_len s <= 1.
Proof. destruct s as [[]|]; cbn; unfold opt_len; cbn; lia. Qed.

(** What the scan returns. *)
Definition scan_last s (ip : list Z) (fp : list Z) : Z :=
  match fp with
  | [] => match ip with [] => -1 | _ => opt_len s + zlength ip - 1 end
  | _ => opt_len s + zlength ip + zlength fp
  end.
Definition scan_first s (ip : list Z) (pt : bool) : Z :=
  opt_len s + (if pt then match ip with [] => 1 | _ => 0 end else 0).
Definition scan_dot s (ip : list Z) (pt : bool) : Z := if pt then opt_len s + zlength ip else -1.

Lemma scan_ok m s ip pt fp rest : Forall is_digit ip -> Forall is_digit fp -> (pt = false -> fp = []) ->
  stuck s ip pt fp rest -> zlength ip + zlength fp <= 127 ->
  scan_loop m (mantissa s ip pt fp ++ rest) (-1) 0 (-1) (-1) 0 false =
  Ret (mkscan (zlength (mantissa s ip pt fp) - match rest with [] => 1 | _ => 0 end)
              (zlength ip + zlength fp) (scan_dot s ip pt) (scan_last s ip fp) (scan_first s ip pt) (is_minus s)
              (match rest with [] => false | _ => true end)).
Proof.
  intros FI FF PF ST L. pose proof (opt_len_range s) as OS. pose proof (zlength_nonneg _ ip). pose proof (zlength_nonneg _ fp).
  assert (LM : zlength (mantissa s ip pt fp) = opt_len s + zlength ip + zlength (point_bytes pt) + zlength fp).
  { unfold mantissa. rewrite !zlength_app, !zlength_map. unfold opt_len. lia. }
  rewrite LM. unfold mantissa. rewrite <- !app_assoc.
  assert (E1 : scan_loop m (sign_bytes s ++ map digit_byte ip ++ point_bytes pt ++ map digit_byte fp ++ rest) (-1) 0 (-1) (-1) 0 false =
     scan_loop m (map digit_byte ip ++ point_bytes pt ++ map digit_byte fp ++ rest) (opt_len s - 1) 0 (-1) (-1) (opt_len s) (is_minus s)).
  { destruct s as [[]|]; reflexivity. }
  rewrite E1, scan_digits by (try exact FI; lia). clear E1. rewrite Z.add_0_l.
  assert (STOP : forall i d dot last cf ng, (pt = false -> dot = -1) -> (pt = true -> dot <> -1) ->
     i = opt_len s - 1 + zlength ip + zlength (point_bytes pt) + zlength fp ->
     scan_loop m rest i d dot last cf ng =
     Ret (mkscan (i + 1 - match rest with [] => 1 | _ => 0 end) d dot last cf ng (match rest with [] => false | _ => true end))).
  { intros i d dot last cf ng D1 D2 EI. destruct rest as [|c rest]; cbn [scan_loop].
    - f_equal. f_equal. lia.
    - destruct ST as (S1 & S2 & S3). unfold c0, c9, cdot, cminus, cplus.
      replace ((c >=? 48) && (c <=? 57)) with false by lia.
      replace ((c =? 46) && (dot =? -1)) with false by (destruct pt; [specialize (D2 eq_refl); lia | specialize (S2 eq_refl); lia]).
      assert (S4 : i + 1 = 0 -> c <> 45 /\ c <> 43).
      { intros Hi. rewrite EI in Hi. apply S3.
        - destruct s as [[]|]; [..|reflexivity]; cbn in Hi; unfold opt_len in *; cbn in *; pose proof (zlength_nonneg _ (point_bytes pt)); lia.
        - apply zlength_0. pose proof (zlength_nonneg _ (point_bytes pt)). lia.
        - destruct pt; [|reflexivity]. cbn [point_bytes] in Hi. rewrite zlength_cons in Hi. change (zlength (@nil Z)) with 0 in Hi. lia.
        - apply zlength_0. pose proof (zlength_nonneg _ (point_bytes pt)). lia. }
      replace ((i + 1 =? 0) && (c =? 45)) with false by lia.
      replace ((i + 1 =? 0) && (c =? 43)) with false by lia. f_equal. f_equal. lia. }
  destruct pt.
  - cbn [point_bytes app scan_loop]. unfold c0, c9, cdot.
    change ((46 >=? 48) && (46 <=? 57)) with false. change ((46 =? 46) && (-1 =? -1)) with true. cbv iota.
    rewrite scan_digits by (try exact FF; lia). rewrite STOP; [|discriminate|lia|cbn [point_bytes]; rewrite zlength_cons; change (zlength (@nil Z)) with 0; lia].
    f_equal. f_equal.
    + change (zlength [46]) with 1. lia.
    + unfold scan_dot. lia.
    + unfold scan_last. destruct fp; [|rewrite zlength_cons; lia]. destruct ip; [reflexivity|]. rewrite zlength_cons. lia.
    + unfold scan_first. destruct ip; [rewrite zlength_nil; destruct (opt_len s - 1 + 0 + 1 =? opt_len s) eqn:Q; lia|].
      rewrite zlength_cons. pose proof (zlength_nonneg _ ip). destruct (opt_len s - 1 + (1 + zlength ip) + 1 =? opt_len s) eqn:Q; lia.
  - specialize (PF eq_refl). subst fp. cbn [point_bytes map app]. rewrite STOP; [|reflexivity|discriminate|change (zlength (point_bytes false)) with 0; rewrite zlength_nil; lia].
    change (zlength (@nil Z)) with 0. change (zlength (point_bytes false)) with 0.
    f_equal. f_equal; try lia.
    + unfold scan_last. destruct ip; [reflexivity|]. rewrite zlength_cons. lia.
    + unfold scan_first. lia.
Qed.

(** ** The exponent *)

Definition exp_bytes (u : bool) (s : option bool) (ds : list Z) : list Z :=
  (if u then 69 else 101) :: sign_bytes s ++ map digit_byte ds.
Definition exp_value (s : option bool) (ds : list Z) : Z :=
  if is_minus s then - digits_value ds else digits_value ds.

(** Zeroes skipped, but never the last byte. *)
Fixpoint strip48 (l : list Z) : list Z :=
  match l with
  | [] => []
  | c :: t => match t with [] => l | _ => if c =? 48 then strip48 t else l end
  end.
Lemma strip48_cons c x t : strip48 (c :: x :: t) = if c =? 48 then strip48 (x :: t) else c :: x :: t.
Proof. reflexivity. Qed.

Lemma zlen_app_len pre suf : zlen (pre ++ suf) = zlength pre + zlength suf.
Proof. rewrite zlen_app. reflexivity. Qed.
Lemma get_mid pre c suf : get (pre ++ c :: suf) (zlength pre) = Ret c.
Proof.
  rewrite get_ok by (rewrite zlen_app_len, zlength_cons; pose proof (zlength_nonneg _ pre); pose proof (zlength_nonneg _ suf); lia).
  unfold zn, zlength. rewrite Nat2Z.id. rewrite app_nth2 by lia. rewrite Nat.sub_diag. reflexivity.
Qed.
Lemma strip_zeroes_ok suf : suf <> [] -> forall pre,
  strip_zeroes (length suf - 1) (pre ++ suf) (zlength pre) = Ret (zlength pre + zlength suf - zlength (strip48 suf)).
Proof.
  induction suf as [|c suf IH]; intros H pre; [contradiction|].
  destruct suf as [|x suf].
  - cbn [length Nat.sub strip_zeroes strip48]. rewrite get_mid. mret. f_equal. lia.
  - replace (length (c :: x :: suf) - 1)%nat with (S (length (x :: suf) - 1)) by (cbn [length]; lia).
    cbn [strip_zeroes]. rewrite get_mid. mret. rewrite strip48_cons. unfold c0. destruct (c =? 48) eqn:E.
    + replace (pre ++ c :: x :: suf) with ((pre ++ [c]) ++ x :: suf) by (rewrite <- app_assoc; reflexivity).
      replace (zlength pre + 1) with (zlength (pre ++ [c])) by (rewrite zlength_app; reflexivity).
      rewrite IH by discriminate. f_equal. rewrite zlength_app, !zlength_cons. change (zlength (@nil Z)) with 0. lia.
    + f_equal. lia.
Qed.
Lemma strip48_suffix l : exists p, l = p ++ strip48 l /\ Forall (fun c => c = 48) p.
Proof.
  induction l as [|c l (p & E & F)]; [exists []; split; [reflexivity|constructor]|].
  destruct l as [|x l]; [exists []; split; [reflexivity|constructor]|].
  rewrite strip48_cons. destruct (c =? 48) eqn:Q; [|exists []; split; [reflexivity|constructor]].
  exists (c :: p). split; [cbn [app]; now f_equal|]. constructor; [lia | exact F].
Qed.
Lemma slice_suffix pre suf t p : suf = p ++ t -> slice (pre ++ suf) (zlength pre + zlength suf - zlength t) (zlen (pre ++ suf)) = Ret t.
Proof.
  intros ->. pose proof (zlength_nonneg _ pre). pose proof (zlength_nonneg _ p). pose proof (zlength_nonneg _ t).
  rewrite slice_ok by (rewrite ?zlen_app_len, ?zlength_app; lia). f_equal. rewrite zlen_app_len, zlength_app.
  replace (zlength pre + (zlength p + zlength t) - zlength t) with (zlength (pre ++ p)) by (rewrite zlength_app; lia).
  rewrite app_assoc. replace (Z.to_nat (zlength (pre ++ p))) with (length (pre ++ p)) by (unfold zlength; lia).
  rewrite skipn_app, skipn_all, Nat.sub_diag. cbn [skipn app]. apply firstn_all2. rewrite zlength_app. unfold zlength in *. lia.
Qed.

Lemma exp_digits_tame m s e : (exists o, exp_digits m s e = Ret o) \/ (m = Debug /\ exp_digits m s e = Panic POverflow).
Proof.
  revert e; induction s as [|c s IH]; intros e; cbn [exp_digits]; [left; eauto|].
  destruct ((c <? c0) || (c >? c9)); [left; eauto|].
  assert (T : forall z, (exists y, i32 m z = Ret y) \/ (m = Debug /\ i32 m z = Panic POverflow)).
  { intros z. unfold i32, chk. destruct (_ && _); [left; eauto|]. destruct m; [right; auto | left; eauto]. }
  match goal with |- context [bind ?a _] => destruct (T (e * 10)) as [[y ->]|[-> ->]]; [|right; split; reflexivity] end. mret.
  match goal with |- context [bind (i32 m ?z) _] => destruct (T z) as [[y1 ->]|[-> ->]]; [|right; split; reflexivity] end. mret.
  match goal with |- context [bind (i32 m ?z) _] => destruct (T z) as [[y2 ->]|[-> ->]]; [|right; split; reflexivity] end. mret.
  apply IH.
Qed.
Lemma exp_digits_short m s e : 0 <= e -> (e + 1) * 10 ^ zlength s <= 1000000000 -> exists o, exp_digits m s e = Ret o.
Proof.
  revert e; induction s as [|c s IH]; intros e He H; cbn [exp_digits]; [eauto|].
  destruct ((c <? c0) || (c >? c9)) eqn:E; [eauto|]. unfold c0, c9 in *.
  rewrite zlength_cons, Z.pow_add_r in H by (pose proof (zlength_nonneg _ s); lia).
  assert (P : 0 < 10 ^ zlength s) by (apply Z.pow_pos_nonneg; [lia|apply zlength_nonneg]).
  assert (e <= 100000000) by nia.
  rewrite i32_ok by lia. mret. rewrite i32_ok by lia. mret. rewrite i32_ok by lia. mret.
  apply IH; [lia|]. nia.
Qed.
Lemma exp_digits_value m ds e : Forall is_digit ds -> 0 <= e -> (e + 1) * 10 ^ zlength ds <= 1000000000 ->
  exp_digits m (map digit_byte ds) e = Ret (Some (e * 10 ^ zlength ds + digits_value ds)).
Proof.
  intros F. revert e; induction F as [|x ds Hx F IH]; intros e He H; cbn [map exp_digits].
  - rewrite zlength_nil. f_equal. f_equal. unfold digits_value. cbn. lia.
  - unfold c0, c9, digit_byte, is_digit in *. replace ((48 + x <? 48) || (48 + x >? 57)) with false by lia.
    pose proof (zlength_nonneg _ ds) as Ln.
    rewrite zlength_cons, Z.pow_add_r in * by lia.
    assert (P : 0 < 10 ^ zlength ds) by (apply Z.pow_pos_nonneg; lia).
    assert (e <= 100000000) by nia.
    rewrite i32_ok by lia. mret. rewrite i32_ok by lia. mret. rewrite i32_ok by lia. mret.
    change (map (fun x0 => 48 + x0) ds) with (map digit_byte ds).
    rewrite IH by nia. f_equal. f_equal. rewrite digits_value_cons. ring.
Qed.
Lemma exp_digits_bad m ds c rest e o : Forall is_digit ds -> ~ (48 <= c <= 57) ->
  exp_digits m (map digit_byte ds ++ c :: rest) e = Ret o -> o = None.
Proof.
  intros F Hc. revert e; induction F as [|x ds Hx F IH]; intros e; cbn [map app exp_digits].
  - unfold c0, c9. replace ((c <? 48) || (c >? 57)) with true by lia. congruence.
  - destruct ((digit_byte x <? c0) || (digit_byte x >? c9)); [congruence|].
    intros H. do 3 inv_bind H. exact (IH _ H).
Qed.

(** Digits without superfluous zeroes (one digit is kept). *)
Fixpoint strip1 (l : list Z) : list Z :=
  match l with
  | [] => []
  | c :: t => match t with [] => l | _ => if c =? 0 then strip1 t else l end
  end.
Lemma strip48_map l : strip48 (map digit_byte l) = map digit_byte (strip1 l).
Proof.
  induction l as [|c l IH]; [reflexivity|]. destruct l as [|x l]; [reflexivity|].
  change (strip48 (map digit_byte (c :: x :: l))) with (if digit_byte c =? 48 then strip48 (map digit_byte (x :: l)) else map digit_byte (c :: x :: l)).
  change (strip1 (c :: x :: l)) with (if c =? 0 then strip1 (x :: l) else c :: x :: l).
  unfold digit_byte at 1. destruct (Z.eqb_spec c 0) as [->|]; [exact IH|]. replace (48 + c =? 48) with false by lia. reflexivity.
Qed.
Lemma strip1_value l : digits_value (strip1 l) = digits_value l.
Proof.
  induction l as [|c l IH]; [reflexivity|]. destruct l as [|x l]; [reflexivity|].
  change (strip1 (c :: x :: l)) with (if c =? 0 then strip1 (x :: l) else c :: x :: l).
  destruct (Z.eqb_spec c 0) as [->|]; [|reflexivity]. rewrite IH, (digits_value_cons 0). lia.
Qed.
Lemma strip1_ok l : Forall is_digit l -> Forall is_digit (strip1 l).
Proof.
  induction 1 as [|c l Hc F IH]; [constructor|]. destruct l as [|x l]; [cbn; constructor; [exact Hc|constructor]|].
  change (strip1 (c :: x :: l)) with (if c =? 0 then strip1 (x :: l) else c :: x :: l).
  destruct (c =? 0); [exact IH | constructor; assumption].
Qed.
Lemma strip1_big l : Forall is_digit l -> 2 <= zlength (strip1 l) -> 10 ^ (zlength (strip1 l) - 1) <= digits_value l.
Proof.
  intros F H. rewrite <- strip1_value. pose proof (strip1_ok l F) as F'.
  assert (N : match strip1 l with [] => False | c :: t => t <> [] -> c <> 0 end).
  { clear F F'. induction l as [|c l IH]; [cbn in H; lia|]. destruct l as [|x l]; [cbn in H; lia|].
    change (strip1 (c :: x :: l)) with (if c =? 0 then strip1 (x :: l) else c :: x :: l) in *.
    destruct (Z.eqb_spec c 0); [exact (IH H) | auto]. }
  destruct (strip1 l) as [|c t]; [contradiction|]. rewrite zlength_cons in *. inversion F'; subst.
  assert (c <> 0) by (apply N; intros ->; rewrite zlength_nil in H; lia).
  rewrite digits_value_cons. pose proof (digits_value_bound t ltac:(assumption)). unfold is_digit in *.
  replace (1 + zlength t - 1) with (zlength t) by lia. nia.
Qed.

Lemma sign_digits_inj s ds suf s0 : ds <> [] -> Forall is_digit ds ->
  sign_bytes s ++ map digit_byte ds = sign_bytes s0 ++ suf ->
  (s0 = None -> match suf with [] => True | c :: _ => c <> 45 /\ c <> 43 end) ->
  s = s0 /\ map digit_byte ds = suf.
Proof.
  intros N F E H. destruct ds as [|x ds]; [contradiction|]. inversion F; subst. unfold is_digit in *.
  destruct s as [[]|], s0 as [[]|]; cbn [sign_bytes app map] in E.
  - split; [reflexivity|]. now inversion E.
  - inversion E.
  - destruct suf as [|c suf]; [discriminate|]. specialize (H eq_refl). inversion E. lia.
  - inversion E.
  - split; [reflexivity|]. now inversion E.
  - destruct suf as [|c suf]; [discriminate|]. specialize (H eq_refl). inversion E. lia.
  - inversion E. unfold digit_byte in *. lia.
  - inversion E. unfold digit_byte in *. lia.
  - split; [reflexivity | exact E].
Qed.

Definition exp_spec (rest : list Z) (o : option Z) : Prop :=
  forall e, o = Some e <-> exists u s ds, rest = exp_bytes u s ds /\ Forall is_digit ds /\ ds <> [] /\
    e = exp_value s ds /\ -30 <= e <= 65.

Lemma parse_exp_ok m pre rest : rest <> [] -> exists o, exp_spec rest o /\
  (parse_exp m (pre ++ rest) (zlength pre) = Ret o \/
   (m = Debug /\ 11 <= zlength rest /\ o = None /\ parse_exp m (pre ++ rest) (zlength pre) = Panic POverflow)).
Proof.
  intros HR. destruct rest as [|c r1]; [contradiction|]. clear HR.
  unfold parse_exp. rewrite get_mid. mret. unfold ce, cE.
  destruct (negb (c =? 101) && negb (c =? 69)) eqn:EC.
  { exists None. split; [|left; reflexivity]. intros e. split; [discriminate|].
    intros (u & s & ds & E & _). inversion E. destruct u; lia. }
  assert (HC : exists u : bool, c = if u then 69 else 101).
  { destruct (Z.eqb_spec c 101); [exists false; assumption|]. exists true. cbn in EC. lia. }
  destruct HC as [u0 HC].
  rewrite zlen_app_len, zlength_cons.
  destruct r1 as [|c2 r2].
  { exists None. split; [|left; rewrite zlength_nil; replace (zlength pre + 1 =? zlength pre + (1 + 0)) with true by lia; reflexivity].
    intros e. split; [discriminate|]. intros (u & s & ds & E & _ & N & _). unfold exp_bytes in E.
    exfalso. destruct s as [[]|]; cbn in E; try discriminate. destruct ds; [now apply N | discriminate]. }
  rewrite zlength_cons. pose proof (zlength_nonneg _ r2) as L2.
  replace (zlength pre + 1 =? zlength pre + (1 + (1 + zlength r2))) with false by lia.
  replace (pre ++ c :: c2 :: r2) with ((pre ++ [c]) ++ c2 :: r2) by (rewrite <- app_assoc; reflexivity).
  replace (zlength pre + 1) with (zlength (pre ++ [c])) by (rewrite zlength_app; reflexivity).
  rewrite get_mid. mret.
  assert (L1 : zlength pre + (1 + (1 + zlength r2)) = zlength (pre ++ [c]) + (1 + zlength r2)).
  { rewrite zlength_app. change (zlength [c]) with 1. lia. }
  rewrite L1. clear L1. set (pre1 := pre ++ [c]).
  (* sign *)
  assert (SG : exists s0 suf, c2 :: r2 = sign_bytes s0 ++ suf /\
    (s0 = None -> match suf with [] => True | c :: _ => c <> 45 /\ c <> 43 end) /\
    (c2 =? cminus) = is_minus s0 /\
    ((c2 =? cminus) || (c2 =? cplus)) = (match s0 with None => false | _ => true end)).
  { unfold cminus, cplus. destruct (Z.eq_dec c2 45) as [->|N1]; [exists (Some true), r2; repeat split; discriminate|].
    destruct (Z.eq_dec c2 43) as [->|N2]; [exists (Some false), r2; repeat split; discriminate|].
    exists None, (c2 :: r2). split; [reflexivity|]. split; [tauto|]. split; [cbn; lia | lia]. }
  destruct SG as (s0 & suf & ES & HN & -> & ->).
  assert (LS : opt_len s0 + zlength suf = 1 + zlength r2).
  { rewrite <- (zlength_cons _ c2 r2), ES, zlength_app. reflexivity. }
  set (pre2 := pre1 ++ sign_bytes s0).
  assert (EP : pre1 ++ c2 :: r2 = pre2 ++ suf) by (subst pre2; rewrite ES, app_assoc; reflexivity).
  assert (L3 : (if match s0 with Some _ => true | None => false end then zlength pre1 + 1 else zlength pre1) = zlength pre2).
  { subst pre2. rewrite zlength_app. destruct s0 as [[]|]; cbn; lia. }
  assert (LE : zlength pre1 + (1 + zlength r2) = zlength pre2 + zlength suf).
  { subst pre2. rewrite zlength_app. unfold opt_len in LS. lia. }
  rewrite EP, L3, LE.
  assert (UNI : forall u s ds, c :: c2 :: r2 = exp_bytes u s ds -> Forall is_digit ds -> ds <> [] -> s = s0 /\ map digit_byte ds = suf).
  { intros u s ds E F N. unfold exp_bytes in E. inversion E as [[Hc Ht]]. rewrite ES in Ht. symmetry in Ht. apply (sign_digits_inj s ds suf s0 N F Ht HN). }
  destruct (match s0 with Some _ => true | None => false end && (zlength pre2 =? zlength pre2 + zlength suf)) eqn:EZ.
  { exists None. split; [|left; reflexivity]. intros e. split; [discriminate|].
    intros (u & s & ds & E & F & N & _). destruct (UNI u s ds E F N) as [_ E2].
    assert (zlength suf = 0) by lia. apply zlength_0 in H. subst suf. destruct ds; [now contradiction N|discriminate]. }
  assert (NS : suf <> []).
  { intros ->. destruct s0; [cbn in EZ; rewrite Z.add_0_r, Z.eqb_refl in EZ; discriminate|]. discriminate. }
  replace (Z.to_nat (zlength pre2 + zlength suf - 1 - zlength pre2)) with (length suf - 1)%nat by (unfold zlength; lia).
  rewrite strip_zeroes_ok by exact NS. mret.
  destruct (strip48_suffix suf) as (p & Ep & Fp).
  pose proof (slice_suffix pre2 suf (strip48 suf) p Ep) as SL. rewrite zlen_app_len in SL. rewrite ?zlen_app_len, SL. mret. clear SL.
  assert (LT : zlength (strip48 suf) <= zlength suf) by (rewrite Ep at 2; rewrite zlength_app; pose proof (zlength_nonneg _ p); lia).
  set (fin := fun e : option Z => match e with
    | Some exp => if zlength pre2 + zlength suf >=? zlength pre2 + zlength suf - zlength (strip48 suf) + 4 then Ret None
        else if negb (is_minus s0) && (as_usize exp >? MAX_DIGITS) || is_minus s0 && (as_usize exp >? MAX_FRAC) then Ret None
        else if is_minus s0 then e0 <- i32 m (- exp);; Ret (Some e0) else Ret (Some exp)
    | None => Ret None end).
  change (exists o : option Z, exp_spec (c :: c2 :: r2) o /\
    ((e <- exp_digits m (strip48 suf) 0;; fin e) = Ret o \/
     m = Debug /\ 11 <= 1 + (1 + zlength r2) /\ o = None /\ (e <- exp_digits m (strip48 suf) 0;; fin e) = Panic POverflow)).
  (* the outcome when the result must be None *)
  assert (NONE : (forall o, exp_digits m (strip48 suf) 0 = Ret o -> fin o = Ret None) -> exp_spec (c :: c2 :: r2) None ->
    exists o : option Z, exp_spec (c :: c2 :: r2) o /\
    ((e <- exp_digits m (strip48 suf) 0;; fin e) = Ret o \/
     m = Debug /\ 11 <= 1 + (1 + zlength r2) /\ o = None /\ (e <- exp_digits m (strip48 suf) 0;; fin e) = Panic POverflow)).
  { intros HF HS. exists None. split; [exact HS|].
    destruct (exp_digits_tame m (strip48 suf) 0) as [[o Eo]|[-> Eo]].
    - left. rewrite Eo. mret. apply HF, Eo.
    - destruct (Z_le_dec (zlength (strip48 suf)) 9) as [HL|HL].
      + destruct (exp_digits_short Debug (strip48 suf) 0) as [o Eo']; [lia| |congruence].
        assert (10 ^ zlength (strip48 suf) <= 10 ^ 9) by (apply Z.pow_le_mono_r; lia). lia.
      + right. rewrite Eo. cbn [bind]. repeat split. pose proof (opt_len_range s0). lia. }
  destruct (split_digits suf) as (ds & tl & ET & FD & RT).
  destruct tl as [|ct tl].
  2:{ apply NONE.
    - intros o Eo. assert (o = None) as ->; [|reflexivity].
      (* the bad byte survives the stripping *)
      assert (exists ds', strip48 suf = map digit_byte ds' ++ ct :: tl /\ Forall is_digit ds') as (ds' & E' & F').
      { clear -ET FD RT. revert suf ET. induction FD as [|x ds Hx FD IH]; intros suf ET.
        - exists []. split; [|constructor]. subst suf. cbn [map app]. destruct tl; [reflexivity|].
          rewrite strip48_cons. replace (ct =? 48) with false by lia. reflexivity.
        - subst suf. cbn [map app]. destruct (map digit_byte ds ++ ct :: tl) as [|y t] eqn:Q; [destruct ds; discriminate|].
          rewrite strip48_cons. destruct (digit_byte x =? 48).
          + apply IH. reflexivity.
          + exists (x :: ds). split; [cbn [map app]; rewrite Q; reflexivity | constructor; assumption]. }
      rewrite E' in Eo. apply (exp_digits_bad m ds' ct tl 0 o F' RT Eo).
    - intros e. split; [discriminate|]. intros (u & s & ds1 & E & F & N & _).
      destruct (UNI u s ds1 E F N) as [_ E2]. exfalso. rewrite <- E2 in ET.
      assert (In ct (map digit_byte ds1)) by (rewrite ET; apply in_or_app; right; left; reflexivity).
      apply in_map_iff in H. destruct H as (x & <- & Hx). rewrite Forall_forall in F. specialize (F x Hx). unfold is_digit, digit_byte in *. lia. }
  rewrite app_nil_r in ET. subst suf.
  assert (ND : ds <> []) by (destruct ds; [now apply NS | discriminate]).
  rewrite strip48_map in *. rewrite zlength_map in *.
  pose proof (digits_value_bound ds FD) as BD.
  assert (SPEC : exp_spec (c :: c2 :: r2) (if (-30 <=? exp_value s0 ds) && (exp_value s0 ds <=? 65) then Some (exp_value s0 ds) else None)).
  { intros e. split.
    - destruct ((-30 <=? exp_value s0 ds) && (exp_value s0 ds <=? 65)) eqn:Q; [|discriminate]. intros [= <-].
      exists u0, s0, ds. split; [unfold exp_bytes; rewrite ES, HC; reflexivity|]. split; [exact FD|]. split; [exact ND|]. split; [reflexivity | lia].
    - intros (u & s & ds1 & E & F & N & -> & B). destruct (UNI u s ds1 E F N) as [-> E2].
      assert (ds1 = ds) as ->.
      { clear -E2. revert ds E2. induction ds1 as [|x l IH]; intros [|y l'] E; try discriminate; [reflexivity|].
        cbn [map] in E. inversion E as [[H1 H2]]. unfold digit_byte in H1. f_equal; [lia | apply IH; assumption]. }
      replace ((-30 <=? exp_value s0 ds) && (exp_value s0 ds <=? 65)) with true by lia. reflexivity. }
  destruct (Z_le_dec (zlength (strip1 ds)) 3) as [H3|H3].
  - eexists. split; [exact SPEC|]. left.
    rewrite exp_digits_value; [|apply strip1_ok, FD|lia|].
    2:{ assert (10 ^ zlength (strip1 ds) <= 10 ^ 3) by (apply Z.pow_le_mono_r; lia). lia. }
    mret. subst fin. cbv beta iota. rewrite ?strip48_map, ?zlength_map. rewrite Z.mul_0_l, Z.add_0_l, strip1_value.
    replace (zlength pre2 + zlength ds >=? zlength pre2 + zlength ds - zlength (strip1 ds) + 4) with false by lia.
    assert (B3 : digits_value ds < 1000).
    { rewrite <- strip1_value. pose proof (digits_value_bound (strip1 ds) (strip1_ok ds FD)).
      assert (10 ^ zlength (strip1 ds) <= 10 ^ 3) by (apply Z.pow_le_mono_r; lia). lia. }
    rewrite as_usize_id by lia. unfold MAX_DIGITS, MAX_FRAC, exp_value. destruct (is_minus s0); cbn [negb andb orb].
    + destruct (digits_value ds >? 30) eqn:Q; [replace (-30 <=? - digits_value ds) with false by lia; reflexivity|].
      replace ((-30 <=? - digits_value ds) && (- digits_value ds <=? 65)) with true by lia.
      rewrite i32_ok by lia. reflexivity.
    + rewrite orb_false_r. destruct (digits_value ds >? 65) eqn:Q; [replace (digits_value ds <=? 65) with false by lia; rewrite andb_false_r; reflexivity|].
      replace ((-30 <=? digits_value ds) && (digits_value ds <=? 65)) with true by lia. reflexivity.
  - pose proof (strip1_big ds FD ltac:(lia)) as BG.
    assert (10 ^ 3 <= 10 ^ (zlength (strip1 ds) - 1)) by (apply Z.pow_le_mono_r; lia).
    apply NONE.
    + intros o _. subst fin. cbv beta. destruct o as [x|]; [|reflexivity]. rewrite ?strip48_map, ?zlength_map.
      replace (zlength pre2 + zlength ds >=? zlength pre2 + zlength ds - zlength (strip1 ds) + 4) with true by lia. reflexivity.
    + replace ((-30 <=? exp_value s0 ds) && (exp_value s0 ds <=? 65)) with false in SPEC; [exact SPEC|].
      unfold exp_value. destruct (is_minus s0); lia.
Qed.
