(** * Rounding what has been truncated. *)
From Coq Require Import ZArith List Bool Lia QArith Qabs Qround Lqa.
From Verif Require Import Spec QLib History Laws.
Open Scope Z_scope.

Lemma round_away_opp q : round_away (- q) = - round_away q.
Proof.
  unfold round_away. destruct (Qle_bool 0 q) eqn:A, (Qle_bool 0 (- q)) eqn:B; try (apply Qle_bool_iff in A); try (apply Qle_bool_iff in B).
  - assert (Z : (q == 0)%Q) by lra. rewrite (Qfloor_comp (- q + (1 # 2)) (1 # 2)) by (rewrite Z; reflexivity). rewrite (Qfloor_comp (q + (1 # 2)) (1 # 2)) by (rewrite Z; reflexivity). reflexivity.
  - f_equal. apply Qfloor_comp. ring.
  - rewrite Z.opp_involutive. reflexivity.
  - exfalso. assert (~ (0 <= q)%Q) by (intros X; apply Qle_bool_iff in X; congruence). assert (~ (0 <= - q)%Q) by (intros X; apply Qle_bool_iff in X; congruence). lra.
Qed.
Lemma round_at_opp q f : (round_at (- q) f == - round_at q f)%Q.
Proof. unfold round_at. rewrite (round_away_comp (- q * pow10 f) (- (q * pow10 f))) by ring. rewrite round_away_opp, inject_Z_opp. ring. Qed.
Lemma round_away_pos q : (0 <= q)%Q -> round_away q = Qfloor (q + (1 # 2)).
Proof. intros H. unfold round_away. apply Qle_bool_iff in H. rewrite H. reflexivity. Qed.

(** Nothing is lost by truncating to more digits first: the halves have only one digit more. *)
Lemma round_truncate_pos q g f : (0 <= q)%Q -> f < g -> round_away (truncate_at q g * pow10 f) = round_away (q * pow10 f).
Proof.
  intros Q0 L. pose proof (pow10_pos f) as Pf. pose proof (truncate_at_pos q g Q0) as (T0 & T1 & _).
  assert (A : (0 <= q * pow10 f)%Q) by (apply Qmult_le_0_compat; [exact Q0|apply Qlt_le_weak, Pf]).
  assert (B : (0 <= truncate_at q g * pow10 f)%Q) by (apply Qmult_le_0_compat; [exact T0|apply Qlt_le_weak, Pf]).
  rewrite !round_away_pos by assumption. symmetry. set (n := Qfloor (truncate_at q g * pow10 f + (1 # 2))).
  pose proof (Qfloor_le (truncate_at q g * pow10 f + (1 # 2))) as F1. pose proof (Qlt_floor (truncate_at q g * pow10 f + (1 # 2))) as F2. fold n in F1, F2. clearbody n.
  apply floor_is.
  - assert (truncate_at q g * pow10 f <= q * pow10 f)%Q by (apply Qmult_le_compat_r; [exact T1|apply Qlt_le_weak, Pf]). lra.
  - (* M, the truncated number in units of 10^-g, is below the integer (n + 1/2) * 10^(g-f) *)
    assert (Pg : (0 <= q * pow10 g)%Q) by (apply Qmult_le_0_compat; [exact Q0|apply Qlt_le_weak, pow10_pos]).
    pose proof (Qlt_floor (q * pow10 g)) as U. unfold truncate_at in F2. rewrite (truncate_pos _ Pg) in F2. set (M := Qfloor (q * pow10 g)) in *. clearbody M.
    assert (E : (pow10 g == pow10 f * pow10 (g - f))%Q) by (rewrite <- pow10_add; replace (f + (g - f)) with g by lia; reflexivity).
    assert (K : (inject_Z (2 * M) < inject_Z ((2 * n + 1) * 10 ^ (g - f)))%Q).
    { rewrite !inject_Z_mult, inject_Z_plus, inject_Z_mult, <- pow10_nonneg by lia. change (inject_Z 2) with 2%Q. change (inject_Z 1) with 1%Q.
      assert (X : (inject_Z M * pow10 (- g) * pow10 f < inject_Z (n + 1) - (1 # 2))%Q) by lra.
      apply (Qmult_lt_compat_r _ _ (pow10 (g - f)) (pow10_pos _)) in X.
      setoid_replace (inject_Z M * pow10 (- g) * pow10 f * pow10 (g - f))%Q with (inject_Z M)%Q in X.
      2:{ rewrite <- Qmult_assoc, <- E, <- Qmult_assoc, pow10_inv. ring. }
      rewrite inject_Z_plus in X. change (inject_Z 1) with 1%Q in X. set (p := pow10 (g - f)) in *. set (nn := inject_Z n) in *. set (mm := inject_Z M) in *. clearbody p nn mm.
      setoid_replace ((nn + 1 - (1 # 2)) * p)%Q with ((nn + (1 # 2)) * p)%Q in X by ring. setoid_replace ((2 * nn + 1) * p)%Q with (2 * ((nn + (1 # 2)) * p))%Q by ring. lra. }
    rewrite <- Zlt_Qlt in K.
    assert (M + 1 <= (2 * n + 1) * 5 * 10 ^ (g - f - 1)).
    { replace (10 ^ (g - f)) with (10 * 10 ^ (g - f - 1)) in K by (rewrite <- Z.pow_succ_r by lia; f_equal; lia). lia. }
    assert (V : (q * pow10 g < inject_Z ((2 * n + 1) * 5 * 10 ^ (g - f - 1)))%Q).
    { eapply Qlt_le_trans; [exact U|]. rewrite <- Zle_Qle. exact H. }
    assert (W : (2 * (q * pow10 g) < inject_Z ((2 * n + 1) * 10 ^ (g - f)))%Q).
    { replace (10 ^ (g - f)) with (10 * 10 ^ (g - f - 1)) by (rewrite <- Z.pow_succ_r by lia; f_equal; lia).
      replace ((2 * n + 1) * (10 * 10 ^ (g - f - 1))) with (2 * ((2 * n + 1) * 5 * 10 ^ (g - f - 1))) by ring. rewrite inject_Z_mult. change (inject_Z 2) with 2%Q. lra. }
    rewrite inject_Z_mult, inject_Z_plus, inject_Z_mult, <- pow10_nonneg, E in W by lia. change (inject_Z 2) with 2%Q in W. change (inject_Z 1) with 1%Q in W.
    rewrite inject_Z_plus. change (inject_Z 1) with 1%Q. pose proof (pow10_pos (g - f)) as Pp. set (p := pow10 (g - f)) in *. set (nn := inject_Z n) in *. set (y := (q * pow10 f)%Q) in *.
    setoid_replace (q * (pow10 f * p))%Q with (y * p)%Q in W by (unfold y; ring). clearbody p nn y.
    assert (Y : ((2 * y) * p < (2 * nn + 1) * p)%Q) by lra. apply Qmult_lt_r in Y; [lra|exact Pp].
Qed.
Lemma round_truncate q g f : f < g -> (round_at (truncate_at q g) f == round_at q f)%Q.
Proof.
  intros L. destruct (Qlt_le_dec q 0) as [N|N].
  - assert (P : (0 <= - q)%Q) by lra. assert (E : (q == - - q)%Q) by ring.
    rewrite (round_at_comp _ _ f (truncate_at_comp _ _ g E)), (round_at_comp _ _ f (truncate_at_opp (- q) g)), round_at_opp, (round_at_comp _ _ f E), round_at_opp.
    unfold round_at. rewrite (round_truncate_pos (- q) g f P L). reflexivity.
  - unfold round_at. rewrite (round_truncate_pos q g f N L). reflexivity.
Qed.
Lemma round_away_truncate q g : 0 < g -> round_away (truncate_at q g) = round_away q.
Proof.
  intros L. pose proof (round_truncate q g 0 L) as H. unfold round_at in H. change (pow10 0) with 1%Q in H. change (pow10 (- 0)) with 1%Q in H.
  rewrite !Qmult_1_r in H. rewrite (round_away_comp _ (truncate_at q g)) in H by ring. rewrite (round_away_comp (q * 1) q) in H by ring. unfold Qeq in H. cbn in H. lia.
Qed.

(** ** A canonical numeral is determined by its bytes *)
Import ListNotations.
Definition starts_other (r : list Z) : Prop := match r with [] => True | c :: _ => ~ (48 <= c <= 57) end.
Lemma digits_split i : forall i' r r', Forall is_digit i -> Forall is_digit i' -> starts_other r -> starts_other r' ->
  (map digit_byte i ++ r = map digit_byte i' ++ r')%list -> i = i' /\ r = r'.
Proof.
  unfold is_digit, digit_byte. induction i as [|x i IH]; intros [|x' i'] r r' H H' R R' E.
  - split; [reflexivity|exact E].
  - exfalso. cbn [map app] in E. subst r. inversion H' as [|? ? D _]; subst. unfold starts_other in R. cbn [map app] in R. lia.
  - exfalso. cbn [map app] in E. subst r'. inversion H as [|? ? D _]; subst. unfold starts_other in R'. cbn [map app] in R'. lia.
  - cbn [map app] in E. assert (E1 : 48 + x = 48 + x') by congruence. assert (E2 : (map (fun x => 48 + x) i ++ r = map (fun x => 48 + x) i' ++ r')%list) by congruence. inversion H; inversion H'; subst. destruct (IH i' r r') as [-> ->]; auto. split; [|reflexivity]. assert (x = x') as -> by lia. reflexivity.
Qed.
Lemma canonical_bytes n n' : canonical n -> canonical n' -> numeral_bytes n = numeral_bytes n' -> n = n'.
Proof.
  intros ((D1 & D2 & _ & PF & _) & S1 & X1 & I1 & _ & P1) ((D1' & D2' & _ & PF' & _) & S1' & X1' & I1' & _ & P1') E.
  destruct n as [s i p f e], n' as [s' i' p' f' e']. cbn in *. subst e e'. unfold numeral_bytes in E. cbn in E. rewrite !app_nil_r in E.
  assert (K : forall p f, (p = false -> f = []) -> starts_other ((if p : bool then [46] else []) ++ map digit_byte f)).
  { intros [|] g Hg; [cbn; lia|]. rewrite Hg by reflexivity. exact I. }
  assert (SS : s = s' /\ (map digit_byte i ++ (if p then [46] else []) ++ map digit_byte f = map digit_byte i' ++ (if p' then [46] else []) ++ map digit_byte f')%list).
  { assert (Y : forall i rest, i <> [] -> Forall is_digit i -> exists c t, (map digit_byte i ++ rest = c :: t)%list /\ 48 <= c <= 57).
    { intros [|c t] rest Ne F; [congruence|]. inversion F as [|? ? D _]; subst. unfold is_digit in D. exists (digit_byte c), (map digit_byte t ++ rest)%list. split; [reflexivity|]. unfold digit_byte. lia. }
    destruct (Y i ((if p then [46] else []) ++ map digit_byte f)%list I1 D1) as (c & t & Q & Hc). destruct (Y i' ((if p' then [46] else []) ++ map digit_byte f')%list I1' D1') as (c' & t' & Q' & Hc').
    rewrite Q, Q' in *. destruct s as [[|]|], s' as [[|]|]; try congruence; cbn in E; injection E; intros; subst; try (split; reflexivity); try lia; split; congruence. }
  destruct SS as [<- SS]. destruct (digits_split i i' _ _ D1 D1' (K p f PF) (K p' f' PF') SS) as [<- T].
  assert (p = p' /\ f = f') as [<- <-]; [|reflexivity].
  destruct p, p'; cbn in T.
  - injection T as T. rewrite <- (app_nil_r (map digit_byte f)), <- (app_nil_r (map digit_byte f')) in T. destruct (digits_split f f' [] [] D2 D2' I I T) as [-> _]. auto.
  - exfalso. rewrite PF' in T by reflexivity. discriminate T.
  - exfalso. rewrite PF in T by reflexivity. discriminate T.
  - rewrite PF, PF' by reflexivity. auto.
Qed.
