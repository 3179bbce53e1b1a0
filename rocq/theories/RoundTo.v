(** * round_to and round: growing, negative positions, in place. *)
From Coq Require Import ZArith List Bool Lia QArith Qabs.
From Coq Require Import ZifyBool ZifyNat.
Import ListNotations.
From Verif Require Import Rust Tables Model_Base Model_Cmp Model_Round Model_Arith Spec Lib Cmp AddSub Sign AddTo QLib Round.
Open Scope Z_scope.
Ltac Zify.zify_post_hook ::= Z.div_mod_to_equations.

Lemma get_units_big m d : 120 <= d <= 127 -> exists p, get_units m d = Panic p.
Proof.
  intros H. unfold get_units, i8, chk. replace ((-128 <=? d + 8) && (d + 8 <=? 127)) with false by lia.
  destruct m; [eexists; reflexivity|]. rewrite bind_Ret. unfold div9. rewrite get_out; [eexists; reflexivity|].
  lia.
Qed.

(** Growing: at least as many fractional digits as before. *)
Lemma round_to_grow m a res fr : wf a -> frac_digits a <= fr <= 127 ->
  let G := units_for fr in
  (iu a + G <= 9 /\ exists d, round_to m a res fr = Ret d /\ wf d /\ fd_intg d = fd_intg a /\ fd_frac d = fr /\
     magnitude d = base ^ (G - fu a) * magnitude a /\ (clean a -> clean d)) \/
  (9 < iu a + G /\ exists p, round_to m a res fr = Panic p).
Proof.
  intros Ha Hf G. pose proof (wf_counts a Ha) as (Hi & Hfr & HI & HF & HN).
  pose proof (wf_zlen a Ha) as L. pose proof (wf_uok a Ha) as U.
  unfold round_to. rewrite intg_units_ok, frac_units_ok by assumption. mret. mret. cbv zeta.
  cbn [fd_intg fd_frac fd_lsu set_zero reset_units]. unfold frac. fold (frac_digits a).
  replace (fr >=? frac_digits a) with true by lia. rewrite as_i8_id by lia.
  destruct (Z_le_gt_dec fr 119) as [H119|H119].
  2:{ right. split; [subst G; unfold units_for; lia|]. destruct (get_units_big m fr ltac:(lia)) as [p ->].
      exists p. reflexivity. }
  rewrite get_units_ok by lia. mret. fold G.
  assert (HG : fu a <= G <= 14) by (subst G; unfold fu, units_for; lia).
  set (F := fu a) in *. set (I := iu a) in *.
  assert (DI : forall l, iu (mkfd (fd_intg a) fr l) = I) by reflexivity.
  assert (DF : forall l, fu (mkfd (fd_intg a) fr l) = G) by reflexivity.
  assert (MA : magnitude a = sg (fd_lsu a) 0 (I + F)) by apply magnitude_sg.
  assert (CA : clean a <-> Forall (fun u => u = 0) (skipn (Z.to_nat (I + F)) (fd_lsu a))) by reflexivity.
  clearbody G F I.
  destruct (Z.eqb_spec G F) as [E|E].
  - left. split; [lia|]. eexists; split; [reflexivity|].
    split. { constructor; rewrite ?DI, ?DF; cbn [fd_lsu fd_intg fd_frac]; [apply Ha|apply Ha|apply Ha|lia|lia]. }
    split; [reflexivity|]. split; [reflexivity|].
    split. { rewrite MA, magnitude_sg, DI, DF. cbn [fd_lsu]. rewrite E, Z.sub_diag, Z.pow_0_r. lia. }
    intros C. apply CA in C. unfold clean. rewrite DI, DF, E. exact C.
  - rewrite usize_ok by lia. mret. rewrite slice_ok by lia. mret. rewrite Z.sub_0_r.
    change (skipn (Z.to_nat 0) (fd_lsu a)) with (fd_lsu a).
    set (s := firstn (Z.to_nat (F + I)) (fd_lsu a)).
    assert (Ls : zlen s = F + I) by (subst s; rewrite zlen_firstn; lia).
    destruct (Z_le_gt_dec (I + G) 9) as [HN9|HN9].
    + left. split; [lia|]. rewrite write_slice_ok by (rewrite ?Ls, ?zlen_zero_units; lia). mret.
      eexists; split; [reflexivity|].
      assert (ZB : forall k, 0 <= k -> zn (blit zero_units (G - F) s) k = if (G - F <=? k) && (k <? G + I) then zn (fd_lsu a) (k - (G - F)) else 0).
      { intros k Hk. rewrite zn_blit by (rewrite ?Ls, ?zlen_zero_units; lia). rewrite Ls, zn_zero_units.
        replace (G - F + (F + I)) with (G + I) by lia. destruct ((G - F <=? k) && (k <? G + I)) eqn:B; [|reflexivity].
        subst s. rewrite zn_firstn by lia. replace (k - (G - F) <? Z.of_nat (Z.to_nat (F + I))) with true by lia. reflexivity. }
      set (l2 := blit zero_units (G - F) s) in *.
      assert (L2 : zlen l2 = 9) by (subst l2; rewrite zlen_blit by (rewrite ?Ls, ?zlen_zero_units; lia); reflexivity).
      assert (U2 : uok l2) by (subst l2; apply uok_blit; [apply uok_repeat0 | subst s; apply Forall_firstn, U]).
      split. { constructor; rewrite ?DI, ?DF; cbn [fd_lsu fd_intg fd_frac]; [apply zlen_9; assumption|exact U2|apply Ha|lia|lia]. }
      split; [reflexivity|]. split; [reflexivity|].
      split.
      * rewrite MA, magnitude_sg, DI, DF. cbn [fd_lsu]. replace (I + G) with ((G - F) + (I + F)) by lia.
        rewrite sg_app by lia. rewrite (sg_0 l2 0 (G - F)) by (intros k Hk; rewrite ZB by lia; replace ((G - F <=? k) && (k <? G + I)) with false by lia; reflexivity).
        rewrite Z.add_0_l. f_equal. apply sg_ext. intros k Hk. rewrite ZB by lia.
        replace ((G - F <=? 0 + (G - F) + k) && (0 + (G - F) + k <? G + I)) with true by lia. f_equal. lia.
      * intros _. apply clean_intro; rewrite DI, DF; cbn [fd_lsu]; [|lia]. intros k Hk. rewrite ZB by lia.
        replace ((G - F <=? k) && (k <? G + I)) with false by lia. reflexivity.
    + right. split; [lia|]. unfold write_slice. rewrite Ls, zlen_zero_units.
      replace ((0 <=? G - F) && (G - F <=? G + I) && (G + I <=? 9) && (G + I - (G - F) =? F + I)) with false by lia.
      eexists; reflexivity.
Qed.

(** Negative positions: [ig = -fr] integral digits go. *)
Lemma round_to_zero m a res fr : wf a -> -9223372036854775807 < fr < 0 -> int_digits a <= - fr ->
  round_to m a res fr = Ret zero.
Proof.
  intros Ha Hf Hi. unfold round_to. rewrite intg_units_ok, frac_units_ok by assumption. mret. mret. cbv zeta.
  cbn [fd_intg fd_frac fd_lsu set_zero reset_units]. unfold frac. fold (frac_digits a).
  pose proof (wf_counts a Ha).
  replace (fr >=? frac_digits a) with false by lia. replace (fr <? 0) with true by lia.
  rewrite isize_ok by lia. mret. rewrite isize_ok by lia. mret. rewrite intg_ok.
  replace (- fr + 1 >? int_digits a) with true by lia. reflexivity.
Qed.

Definition neg_rounded (M fu ig : Z) : Z :=
  10 ^ ig * (if ig mod 9 =? 0 then M / 10 ^ (9 * fu + ig) else half_up M (9 * fu + ig)).

Lemma round_to_neg m a res fr : wf a -> fr < 0 -> - fr < int_digits a ->
  let S := neg_rounded (magnitude a) (fu a) (- fr) in
  (exists d, round_to m a res fr = Ret d /\ round_result a d 0 S) \/
  (round_to m a res fr = Panic PIndex /\ iu a = 9 /\ base ^ 9 <= S).
Proof.
  intros Ha Hf Hi S. pose proof (wf_counts a Ha) as (Hid & Hfr & HI & HF & HN).
  pose proof (wf_zlen a Ha) as L. pose proof (wf_uok a Ha) as U.
  unfold round_to. rewrite intg_units_ok, frac_units_ok by assumption. mret. mret. cbv zeta.
  cbn [fd_intg fd_frac fd_lsu set_zero reset_units]. unfold frac. fold (frac_digits a).
  replace (fr >=? frac_digits a) with false by lia. replace (fr <? 0) with true by lia.
  rewrite !isize_ok by lia. mret. rewrite isize_ok by lia. mret. rewrite intg_ok.
  replace (- fr + 1 >? int_digits a) with false by lia.
  assert (Hig : 0 < - fr) by lia. set (ig := - fr) in *. clearbody ig. clear fr Hf.
  set (F := fu a) in *. set (I := iu a) in *.
  assert (HiI : ig < 9 * I) by (subst I; unfold iu, units_for; lia).
  destruct (drop_units (fd_lsu a) F I 0 U L) as (s & l2 & Es & Ew & U2 & L2 & Z2); [lia..|].
  rewrite Z.sub_0_r in Es. rewrite Es. mret. rewrite Z.add_0_l in Ew. rewrite Ew. mret.
  assert (Hq : ig / 9 <= I + 0 /\ (ig mod 9 <> 0 -> ig / 9 < I + 0 /\ 0 = 0)) by (clear - HiI Hi; lia).
  pose proof (round_half_up_ok m (mkfd (fd_intg a) 0 l2) I 0 ig 0 0 U2 L2 ltac:(lia) ltac:(lia) ltac:(lia)
      ltac:(lia) (proj1 Hq) (proj2 Hq) ltac:(lia) (wf_intg a Ha)) as T.
  cbn zeta in T. cbn [fd_lsu] in T. rewrite Z.add_0_r in T.
  set (idx := ig / 9) in *. set (pos := ig mod 9) in *.
  assert (Hd : ig = 9 * idx + pos /\ 0 <= pos < 9 /\ 0 <= idx) by (subst idx pos; lia).
  assert (HP : 10 ^ ig = base ^ idx * 10 ^ pos).
  { rewrite (proj1 Hd), Z.pow_add_r, Z.pow_mul_r by lia. reflexivity. }
  assert (Hidx : idx <= I) by lia.
  assert (ES : sg l2 idx (I - idx) = sg (fd_lsu a) (F + idx) (I - idx)).
  { apply sg_ext. intros k Hk. rewrite Z2 by lia. replace (idx + k <? 0 + I) with true by lia. f_equal. lia. }
  rewrite ES in T.
  assert (HM : magnitude a = sg (fd_lsu a) 0 (F + idx) + base ^ (F + idx) * sg (fd_lsu a) (F + idx) (I - idx)).
  { rewrite magnitude_sg. fold F I. replace (I + F) with ((F + idx) + (I - idx)) by lia. rewrite sg_app by lia. reflexivity. }
  pose proof (sg_bound (fd_lsu a) 0 (F + idx) U ltac:(lia)) as B.
  assert (HS : S = base ^ idx * rounded (sg (fd_lsu a) (F + idx) (I - idx)) pos 0).
  { subst S. unfold neg_rounded, rounded. fold pos. rewrite HP, <- Z.mul_assoc. f_equal. rewrite HM.
    destruct (Z.eqb_spec pos 0) as [E|E].
    - rewrite E, Z.pow_0_r, Z.mul_1_l. replace (9 * F + ig) with (9 * (F + idx)) by lia.
      rewrite Z.pow_mul_r by lia. change (10 ^ 9) with base. pose proof (pow_base_pos (F + idx) ltac:(lia)).
      rewrite (Z.mul_comm (base ^ (F + idx))), Z.div_add by lia. rewrite Z.div_small by lia. lia.
    - f_equal. unfold half_up. replace (9 * F + ig) with (9 * (F + idx) + pos) by lia.
      rewrite drop_round by lia. reflexivity. }
  rewrite <- HS in T.
  destruct T as [(d & E & R)|(E & HN9 & HB)]; [left|right; split; [exact E|lia]].
  exists d. split; [exact E|]. change (neg (mkfd (fd_intg a) 0 l2)) with (neg a) in R.
  apply (rounding_result a l2 I 0 S 0 d); auto; try lia.
  intros _ k Hk. rewrite Z2 by lia. replace (k <? 0 + I) with false by lia. reflexivity.
Qed.

(** ** In place *)
Lemma shift_in_place l F I G : zlen l = 9 -> 0 <= G <= F -> 0 <= I -> F + I <= 9 -> (forall k, F + I <= k -> zn l k = 0) ->
  exists s l1 l2, slice l (F - G) (F + I) = Ret s /\ write_slice zero_units 0 (G + I) s = Ret l2 /\
    copy_within l (F - G) (F + I) 0 = Ret l1 /\ fill l1 (G + I) (F + I) 0 = Ret l2.
Proof.
  intros L HG HI HF HC. rewrite slice_ok by lia.
  set (s := firstn (Z.to_nat (F + I - (F - G))) (skipn (Z.to_nat (F - G)) l)).
  assert (Ls : zlen s = G + I) by (subst s; rewrite zlen_sub; lia).
  exists s, (blit l 0 s), (blit zero_units 0 s). split; [reflexivity|].
  split; [apply write_slice_ok; rewrite ?Ls, ?zlen_zero_units; lia|].
  split; [rewrite copy_within_ok by lia; reflexivity|].
  rewrite fill_ok by (rewrite ?zlen_blit; rewrite ?Ls; lia). f_equal.
  set (z := repeat 0 (Z.to_nat (F + I - (G + I)))).
  assert (Lz : zlen z = F - G) by (subst z; rewrite zlen_repeat; lia).
  assert (Lb : zlen (blit l 0 s) = 9) by (rewrite zlen_blit; rewrite ?Ls; lia).
  assert (Lc : zlen (blit zero_units 0 s) = 9) by (rewrite zlen_blit; rewrite ?Ls, ?zlen_zero_units; lia).
  assert (Ld : zlen (blit (blit l 0 s) (G + I) z) = 9) by (rewrite zlen_blit; rewrite ?Lz; lia).
  apply zn_ext; [unfold zlen in *; lia|].
  intros k Hk. rewrite Ld in Hk. rewrite !zn_blit by (rewrite ?Ls, ?Lz, ?Lb, ?zlen_zero_units; lia).
  rewrite Ls, Lz, zn_zero_units.
  destruct (Z_lt_ge_dec k (G + I)).
  - replace ((G + I <=? k) && (k <? G + I + (F - G))) with false by lia.
    replace ((0 <=? k) && (k <? 0 + (G + I))) with true by lia. reflexivity.
  - replace ((0 <=? k) && (k <? 0 + (G + I))) with false by lia.
    destruct ((G + I <=? k) && (k <? G + I + (F - G))) eqn:B.
    + subst z. apply zn_repeat0.
    + apply HC. lia.
Qed.

Lemma shift_one l n : zlen l = 9 -> 1 <= n <= 9 ->
  forall l1, copy_within l 1 n 0 = Ret l1 -> fill l1 (n - 1) n 0 = set l1 (n - 1) 0.
Proof.
  intros L Hn l1 E. rewrite copy_within_ok in E by lia. apply Ret_inj in E.
  assert (L1 : zlen l1 = 9) by (subst l1; rewrite zlen_blit; rewrite ?zlen_sub; lia).
  rewrite fill_ok, set_ok by lia. f_equal. replace (Z.to_nat (n - (n - 1))) with 1%nat by lia.
  clear E. apply zn_ext; [rewrite upd_length, blit_length; [reflexivity|lia|rewrite zlen_repeat; lia]|].
  intros k Hk. assert (k < 9) by (rewrite zlen_blit in Hk; rewrite ?zlen_repeat; lia).
  rewrite zn_blit by (rewrite ?zlen_repeat; lia). rewrite zn_upd by lia. rewrite zlen_repeat.
  destruct (Z.eqb_spec k (n - 1)).
  - replace ((n - 1 <=? k) && (k <? n - 1 + Z.of_nat 1)) with true by lia. apply zn_repeat0.
  - replace ((n - 1 <=? k) && (k <? n - 1 + Z.of_nat 1)) with false by lia. reflexivity.
Qed.

Lemma round_half_up_frac m i f f' l I G t fr c :
  round_half_up m (mkfd i f l) I G t fr c = round_half_up m (mkfd i f' l) I G t fr c.
Proof. reflexivity. Qed.

Lemma bind_ext A B (o o' : outcome A) (k k' : A -> outcome B) : o = o' -> (forall a, k a = k' a) -> bind o k = bind o' k'.
Proof. intros -> H. destruct o'; cbn; auto. Qed.

Lemma round_in_place m a res fr : wf a -> clean a -> fr < frac_digits a \/ units_for fr = fu a ->
  round m a fr = round_to m a res fr.
Proof.
  intros Ha Ca Hf. pose proof (wf_counts a Ha) as (Hid & Hfr & HI & HF & HN).
  pose proof (wf_zlen a Ha) as L.
  assert (HC : forall k, fu a + iu a <= k -> zn (fd_lsu a) k = 0) by (intros k Hk; apply (clean_elim a Ha Ca); lia).
  unfold round, round_to. rewrite intg_units_ok, frac_units_ok by assumption. mret. mret. cbv zeta.
  rewrite ?bind_Ret. cbv beta. cbn [fd_intg fd_frac fd_lsu set_zero reset_units]. unfold frac. fold (frac_digits a).
  set (F := fu a) in *. set (I := iu a) in *.
  destruct (Z.geb_spec fr (frac_digits a)) as [Hge|Hlt].
  - assert (E : units_for fr = F) by (destruct Hf; [lia|assumption]).
    assert (fr <= 81) by (unfold units_for in E; lia).
    rewrite as_i8_id, get_units_ok by lia. mret. rewrite E. mret. rewrite Z.eqb_refl. reflexivity.
  - destruct (Z.ltb_spec fr 0) as [Hn|Hn].
    + apply bind_ext; [reflexivity|]. intros ig. apply bind_ext; [reflexivity|]. intros ig1.
      destruct (ig1 >? intg a); [reflexivity|].
      destruct (shift_in_place (fd_lsu a) F I 0 L) as (s & l1 & l2 & E1 & E2 & E3 & E4); try lia; auto.
      rewrite Z.sub_0_r, Z.add_0_l in *. rewrite E1, E3. mret. mret. rewrite E2, E4. mret. reflexivity.
    + assert (HfF : fr < 9 * F) by (subst F; unfold fu, units_for; lia).
      rewrite as_i8_id by lia. rewrite i8_ok by lia. mret. mret. rewrite get_units_ok by lia. mret. mret.
      rewrite mod9_ok by lia. mret. mret.
      assert (EU : units_for (fr + 1) = fr / 9 + 1) by (unfold units_for; clear; lia). rewrite EU.
      apply bind_ext; [|intros [[l f] c]; reflexivity].
      destruct (Z.ltb_spec (fr / 9 + 1) F).
      * assert (EI : forall c G, 0 <= G <= F -> (l <- copy_within (fd_lsu a) (F - G) (F + I) 0 ;;
          l <- fill l (G + I) (F + I) 0 ;; Ret (l, G, c : Z)) = (s <- slice (fd_lsu a) (F - G) (F + I) ;;
          l <- write_slice zero_units 0 (G + I) s ;; Ret (l, G, c))).
        { intros c G HG. destruct (shift_in_place (fd_lsu a) F I G L) as (s & l1 & l2 & E1 & E2 & E3 & E4); try lia; auto.
          rewrite E1, E3. mret. mret. rewrite E2, E4. reflexivity. }
        destruct (fr mod 9 =? 0).
        -- rewrite get_ok by lia. repeat mret. apply EI. lia.
        -- repeat mret. apply EI. lia.
      * apply bind_ext; [reflexivity|]. intros _. destruct (fr mod 9 =? 0); [|reflexivity].
        apply bind_ext; [reflexivity|]. intros u.
        destruct (shift_in_place (fd_lsu a) F I (F - 1) L) as (s & l1 & l2 & E1 & E2 & E3 & E4); try lia; auto.
        replace (F - (F - 1)) with 1 in * by lia. replace (F - 1 + I) with (F + I - 1) in * by lia.
        rewrite E1, E3. mret. mret. rewrite E2. mret.
        rewrite <- (shift_one (fd_lsu a) (F + I) L ltac:(lia) l1 E3), E4. reflexivity.
Qed.
