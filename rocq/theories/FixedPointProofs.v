From Verif Require Import BaseLemmas FixedPointModel FixedPointSpec.

(* ---------------- rounding relations determine the result -------------- *)
Lemma nearest_up_unique q q' n d :
  0 < d -> nearest_up q n d -> nearest_up q' n d -> q = q'.
Proof.
  unfold nearest_up, nearest, is_tie. intros Hd [H1 T1] [H2 T2].
  destruct (Z.eq_dec q q') as [|Hne]; [assumption|exfalso].
  assert (Hlt : q < q' \/ q' < q) by lia.
  destruct Hlt as [Hlt|Hlt].
  - assert (q' = q + 1) by nia. subst q'.
    assert (E : 2 * n = (2 * q + 1) * d) by nia.
    specialize (T1 (ex_intro _ q E)). nia.
  - assert (q = q' + 1) by nia. subst q.
    assert (E : 2 * n = (2 * q' + 1) * d) by nia.
    specialize (T2 (ex_intro _ q' E)). nia.
Qed.

Lemma nearest_away_unique q q' n d :
  0 < d -> nearest_away q n d -> nearest_away q' n d -> q = q'.
Proof.
  unfold nearest_away, nearest, is_tie. intros Hd [H1 T1] [H2 T2].
  destruct (Z.eq_dec q q') as [|Hne]; [assumption|exfalso].
  assert (Hlt : q < q' \/ q' < q) by lia.
  destruct Hlt as [Hlt|Hlt].
  - assert (q' = q + 1) by nia. subst q'.
    assert (E : 2 * n = (2 * q + 1) * d) by nia.
    specialize (T1 (ex_intro _ q E)). specialize (T2 (ex_intro _ q E)).
    assert (0 <= q \/ q <= -1) as [|] by lia; nia.
  - assert (q = q' + 1) by nia. subst q.
    assert (E : 2 * n = (2 * q' + 1) * d) by nia.
    specialize (T1 (ex_intro _ q' E)). specialize (T2 (ex_intro _ q' E)).
    assert (0 <= q' \/ q' <= -1) as [|] by lia; nia.
Qed.

Lemma rnd_up_nearest n d : 0 < d -> nearest_up (rnd_up n d) n d.
Proof.
  intros Hd. unfold nearest_up, nearest, is_tie, rnd_up.
  pose proof (Z.div_mod (2 * n + d) (2 * d) ltac:(lia)).
  pose proof (Z.mod_pos_bound (2 * n + d) (2 * d) ltac:(lia)).
  set (q := (2 * n + d) / (2 * d)) in *. set (r := (2 * n + d) mod (2 * d)) in *.
  split; [nia|]. intros [k Hk].
  assert (r = 0 \/ 0 < r) as [|] by lia; [nia|].
  assert (2 * d * (k + 1 - q) = r) by nia.
  assert (k + 1 - q <= 0 \/ 1 <= k + 1 - q) as [|] by lia; nia.
Qed.

Lemma rnd_away_nearest n d : 0 < d -> nearest_away (rnd_away n d) n d.
Proof.
  intros Hd. unfold nearest_away, rnd_away.
  destruct (rnd_up_nearest (Z.abs n) d Hd) as [H T]. unfold rnd_up in *.
  set (q := (2 * Z.abs n + d) / (2 * d)) in *.
  unfold nearest, is_tie in *.
  assert (Hq : 0 <= q) by (unfold q; apply Z.div_pos; lia).
  assert (Hn : n < 0 \/ n = 0 \/ 0 < n) by lia.
  destruct Hn as [Hn|[Hn|Hn]].
  - rewrite Z.sgn_neg by lia. rewrite Z.abs_neq in * by lia.
    split; [lia|]. intros [k Hk].
    assert (Ht : exists j, 2 * - n = (2 * j + 1) * d) by (exists (- k - 1); lia).
    specialize (T Ht). nia.
  - subst n. cbn. split; [lia|]. intros; lia.
  - rewrite Z.sgn_pos by lia. rewrite Z.abs_eq in * by lia.
    split; [lia|]. intros [k Hk]. specialize (T (ex_intro _ k Hk)). nia.
Qed.

Lemma rnd_away_nonneg n d : 0 < d -> 0 <= n -> rnd_away n d = rnd_up n d.
Proof.
  intros Hd Hn. unfold rnd_away, rnd_up. rewrite (Z.abs_eq n) by lia.
  destruct (Z.eq_dec n 0) as [->|].
  - cbn [Z.sgn]. rewrite Z.mul_0_r, Z.add_0_l. rewrite Z.div_small by lia. lia.
  - rewrite Z.sgn_pos by lia. lia.
Qed.

(* away on negatives: ceil((2n - d)/(2d)) = floor with -1 *)
Lemma rnd_away_neg n d : 0 < d -> n < 0 -> rnd_away n d = (2 * n + d - 1) / (2 * d).
Proof.
  intros Hd Hn. unfold rnd_away. rewrite Z.sgn_neg, Z.abs_neq by lia.
  pose proof (Z.div_mod (2 * - n + d) (2 * d) ltac:(lia)).
  pose proof (Z.mod_pos_bound (2 * - n + d) (2 * d) ltac:(lia)).
  set (q := (2 * - n + d) / (2 * d)) in *.
  apply Z.div_unique with (r := 2 * n + d - 1 - 2 * d * - q); [left|]; lia.
Qed.

(* ---------------- masks ---------------- *)
Lemma bitnot0 : BitNot 0 = -1. Proof. reflexivity. Qed.
Lemma land_m1_l x : Z.land (-1) x = x. Proof. apply Z.land_m1_l. Qed.
Lemma mask_nz_spec a : MaskIfNonZero a = if a =? 0 then 0 else -1.
Proof. reflexivity. Qed.
Lemma mask_b2z b : MaskIfNonZero (b2z b) = if b then -1 else 0.
Proof. destruct b; reflexivity. Qed.
Lemma sel_true t e : SelectUsingMask (-1) t e = t.
Proof.
  unfold SelectUsingMask, BitXor, BitAnd, BitNot. rewrite Z.land_m1_l.
  change (Z.lnot (-1)) with 0. rewrite Z.land_0_l, Z.lxor_0_r. reflexivity.
Qed.
Lemma sel_false t e : SelectUsingMask 0 t e = e.
Proof.
  unfold SelectUsingMask, BitXor, BitAnd, BitNot. rewrite Z.land_0_l.
  change (Z.lnot 0) with (-1). rewrite Z.land_m1_l, Z.lxor_0_l. reflexivity.
Qed.
Lemma sel_mask (b : bool) t e :
  SelectUsingMask (if b then -1 else 0) t e = if b then t else e.
Proof. destruct b; auto using sel_true, sel_false. Qed.
Lemma land_mask_1 (b : bool) : BitAnd (if b then -1 else 0) 1 = b2z b.
Proof. destruct b; reflexivity. Qed.

Lemma MaskIfLessThan_eq a b : MaskIfLessThan a b = if a <? b then -1 else 0.
Proof. apply mask_b2z. Qed.
Lemma MaskIfGreaterThan_eq a b : MaskIfGreaterThan a b = if a >? b then -1 else 0.
Proof. apply mask_b2z. Qed.
Lemma MaskIfZero_eq a : MaskIfZero a = if a =? 0 then -1 else 0.
Proof. apply mask_b2z. Qed.

(* generic bitwise select: each bit comes from then/else according to the mask *)
Lemma select_bitwise m t e n :
  0 <= n ->
  Z.testbit (SelectUsingMask m t e) n = if Z.testbit m n then Z.testbit t n else Z.testbit e n.
Proof.
  intros Hn. unfold SelectUsingMask, BitXor, BitAnd, BitNot.
  rewrite Z.lxor_spec, !Z.land_spec, Z.lnot_spec by lia.
  destruct (Z.testbit m n), (Z.testbit t n), (Z.testbit e n); reflexivity.
Qed.

(* ---------------- primitives ---------------- *)
Definition w1632 (w : Z) : Prop := w = 16 \/ w = 32.

Ltac pows := 
  change (2 ^ (32 - 1)) with 2147483648 in *; change (2 ^ (16 - 1)) with 32768 in *;
  change (2 ^ (8 - 1)) with 128 in *;
  change (2 ^ (32 - 2)) with 1073741824 in *; change (2 ^ (16 - 2)) with 16384 in *;
  change (2 ^ 32) with 4294967296 in *; change (2 ^ 16) with 65536 in *;
  change (2 ^ 8) with 256 in *.

Lemma fits_int w z : fits w z <-> int_min w <= z <= int_max w.
Proof. unfold fits, int_min, int_max. lia. Qed.

Lemma srdhm_eq w a b : w1632 w -> fits w a -> fits w b ->
  SaturatingRoundingDoublingHighMul w a b =
  if (a =? int_min w) && (b =? int_min w) then int_max w
  else (a * b + 2 ^ (w - 2)) / 2 ^ (w - 1).
Proof.
  intros Hw Ha Hb. unfold SaturatingRoundingDoublingHighMul.
  unfold fits in *.
  assert (Eg : (a =? b) && (a =? int_min w) = (a =? int_min w) && (b =? int_min w)).
  { destruct (Z.eqb_spec a b), (Z.eqb_spec a (int_min w)), (Z.eqb_spec b (int_min w));
      cbn; try reflexivity; exfalso; congruence. }
  rewrite Eg. destruct ((a =? int_min w) && (b =? int_min w)) eqn:E; [reflexivity|].
  assert (Q : Z.quot (a * b + (if a * b >=? 0 then 2 ^ (w - 2) else 1 - 2 ^ (w - 2))) (2 ^ (w - 1))
              = (a * b + 2 ^ (w - 2)) / 2 ^ (w - 1)).
  { assert (Hp : 0 < 2 ^ (w - 1) /\ 2 ^ (w - 1) = 2 * 2 ^ (w - 2)).
    { destruct Hw; subst w; pows; lia. }
    destruct Hp as [Hp1 Hp2]. generalize dependent (2 ^ (w - 1)). intros P _ _ Hp1 Hp2.
    generalize dependent (2 ^ (w - 2)). intros H0 HP. subst P.
    set (ab := a * b). clearbody ab.
    destruct (Z.geb_spec ab 0) as [Hab|Hab].
    - apply Z.quot_div_nonneg; lia.
    - assert (Hneg : Z.quot (ab + (1 - H0)) (2 * H0) = - ((- ab + H0 - 1) / (2 * H0))).
      { replace (ab + (1 - H0)) with (- (- ab + H0 - 1)) by lia.
        rewrite Z.quot_opp_l by lia. rewrite Z.quot_div_nonneg by lia. reflexivity. }
      rewrite Hneg. symmetry.
      pose proof (Z.div_mod (- ab + H0 - 1) (2 * H0) ltac:(lia)) as D.
      pose proof (Z.mod_pos_bound (- ab + H0 - 1) (2 * H0) ltac:(lia)) as M.
      set (q := (- ab + H0 - 1) / (2 * H0)) in *.
      symmetry. apply Z.div_unique with (r := ab + H0 - 2 * H0 * - q); [left|]; lia. }
  rewrite Q. apply wrapS_small.
  - destruct Hw; lia.
  - unfold int_min, int_max in *.
    destruct Hw; subst w; pows.
    + assert (-32768 * 32768 <= a * b <= 32768 * 32768 - 32768) by
        (destruct (Z.eqb_spec a (-32768)), (Z.eqb_spec b (-32768)); cbn in E; try discriminate; nia).
      split; [apply Z.div_le_lower_bound|apply Z.lt_succ_r, Z.div_lt_upper_bound]; lia.
    + assert (-2147483648 * 2147483648 <= a * b <= 2147483648 * 2147483648 - 2147483648) by
        (destruct (Z.eqb_spec a (-2147483648)), (Z.eqb_spec b (-2147483648)); cbn in E; try discriminate; nia).
      split; [apply Z.div_le_lower_bound|apply Z.lt_succ_r, Z.div_lt_upper_bound]; lia.
Qed.

Lemma srdhm_fits w a b : w1632 w -> fits w a -> fits w b ->
  fits w (SaturatingRoundingDoublingHighMul w a b).
Proof.
  intros Hw _ _. unfold SaturatingRoundingDoublingHighMul. apply fits_int.
  assert (1 <= w) by (destruct Hw; lia).
  destruct (_ && _).
  - unfold int_min, int_max. destruct Hw; subst w; pows; lia.
  - apply wrapS_range. assumption.
Qed.

Lemma srdhm_spec w a b : w1632 w -> fits w a -> fits w b ->
  ~ (a = - 2 ^ (w - 1) /\ b = - 2 ^ (w - 1)) ->
  nearest_up (SaturatingRoundingDoublingHighMul w a b) (a * b) (2 ^ (w - 1)).
Proof.
  intros Hw Ha Hb Hn. rewrite srdhm_eq by assumption.
  destruct ((a =? int_min w) && (b =? int_min w)) eqn:E.
  { exfalso. apply Hn. unfold int_min in E. lia. }
  assert (Hp : 0 < 2 ^ (w - 1) /\ 2 ^ (w - 1) = 2 * 2 ^ (w - 2)).
  { destruct Hw; subst w; pows; lia. }
  replace ((a * b + 2 ^ (w - 2)) / 2 ^ (w - 1)) with (rnd_up (a * b) (2 ^ (w - 1))).
  - apply rnd_up_nearest. lia.
  - unfold rnd_up. destruct Hp as [Hp1 Hp2]. rewrite Hp2 at 1.
    replace (2 * (a * b) + 2 * 2 ^ (w - 2)) with (2 * (a * b + 2 ^ (w - 2))) by lia.
    rewrite Z.div_mul_cancel_l by lia. reflexivity.
Qed.

Lemma srdhm_sat w : w1632 w ->
  SaturatingRoundingDoublingHighMul w (- 2 ^ (w - 1)) (- 2 ^ (w - 1)) = 2 ^ (w - 1) - 1.
Proof. intros [-> | ->]; reflexivity. Qed.

(* RoundingDivideByPOT *)
Lemma rdpot_div x d : 1 <= d -> (* d = 2^e, d even or 1 *)
  (d = 1 \/ exists h, d = 2 * h) ->
  x / d + b2z (x mod d >? (d - 1) / 2 + b2z (x <? 0)) = rnd_away x d.
Proof.
  intros Hd [->|[h ->]].
  - rewrite Z.div_1_r, Z.mod_1_r. change ((1 - 1) / 2) with 0.
    destruct (Z.ltb_spec x 0) as [H|H].
    + cbn [b2z]. rewrite rnd_away_neg by lia.
      assert (E : (2 * x + 1 - 1) / (2 * 1) = x) by (symmetry; apply Z.div_unique with 0; lia).
      rewrite E. cbn; lia.
    + cbn [b2z]. rewrite rnd_away_nonneg by lia. unfold rnd_up.
      assert (E : (2 * x + 1) / (2 * 1) = x) by (symmetry; apply Z.div_unique with 1; lia).
      rewrite E. cbn. lia.
  - assert (Eh : (2 * h - 1) / 2 = h - 1) by (symmetry; apply Z.div_unique with 1; lia).
    rewrite Eh.
    pose proof (Z.div_mod x (2 * h) ltac:(lia)) as D.
    pose proof (Z.mod_pos_bound x (2 * h) ltac:(lia)) as M.
    set (q := x / (2 * h)) in *. set (r := x mod (2 * h)) in *. clearbody q r.
    destruct (Z.ltb_spec x 0) as [H|H]; cbn [b2z].
    + rewrite rnd_away_neg by lia.
      destruct (Z.gtb_spec r (h - 1 + 1)) as [G|G]; cbn [b2z].
      * apply Z.div_unique with (2 * r - 2 * h - 1); [left|]; lia.
      * apply Z.div_unique with (2 * r + 2 * h - 1); [left|]; lia.
    + rewrite rnd_away_nonneg by lia. unfold rnd_up.
      destruct (Z.gtb_spec r (h - 1 + 0)) as [G|G]; cbn [b2z].
      * apply Z.div_unique with (2 * r - 2 * h); [left|]; lia.
      * apply Z.div_unique with (2 * r + 2 * h); [left|]; lia.
Qed.

Lemma pow2_1_or_even e : 0 <= e -> 2 ^ e = 1 \/ exists h, 2 ^ e = 2 * h.
Proof.
  intros He. destruct (Z.eq_dec e 0) as [->|]; [left; reflexivity|right].
  exists (2 ^ (e - 1)). rewrite <- Z.pow_succ_r by lia. f_equal. lia.
Qed.

Lemma rnd_away_range x d lo hi : 1 <= d -> lo <= x <= hi -> lo <= 0 <= hi -> lo <= rnd_away x d <= hi.
Proof.
  intros Hd Hx Hz. unfold rnd_away.
  assert (Q : 0 <= (2 * Z.abs x + d) / (2 * d) <= Z.abs x).
  { split; [apply Z.div_pos; lia|].
    destruct (Z.eq_dec x 0) as [->|Hx0].
    - change (Z.abs 0) with 0. rewrite Z.div_small by lia. lia.
    - apply Z.lt_succ_r, Z.div_lt_upper_bound; nia. }
  destruct (Z.lt_trichotomy x 0) as [H|[->|H]].
  - rewrite Z.sgn_neg by lia. lia.
  - cbn. lia.
  - rewrite Z.sgn_pos by lia. lia.
Qed.

Lemma rdpot_eq m w x e : w1632 w -> fits w x -> 0 <= e <= w - 1 ->
  RoundingDivideByPOT m w x e = Some (rnd_away x (2 ^ e)).
Proof.
  intros Hw Hx He. unfold RoundingDivideByPOT, guard.
  replace (0 <=? e) with true by lia. cbn [bind].
  replace (e <=? 31) with true by (destruct Hw; lia). cbn [bind].
  assert (Hpe : 0 < 2 ^ e) by (apply Z.pow_pos_nonneg; lia).
  assert (Hpw : 2 ^ e <= 2 ^ (w - 1)) by (apply Z.pow_le_mono_r; lia).
  assert (Hmask : wrapS w (2 ^ e - 1) = 2 ^ e - 1).
  { apply wrapS_small; [destruct Hw; lia|]. unfold int_min, int_max. lia. }
  rewrite Hmask.
  assert (Hland : BitAnd x (2 ^ e - 1) = x mod 2 ^ e).
  { unfold BitAnd. rewrite <- Z.sub_1_r || idtac.
    replace (2 ^ e - 1) with (Z.ones e) by (rewrite Z.ones_equiv; lia).
    apply Z.land_ones. lia. }
  rewrite Hland. unfold ShiftRight at 1. cbn [Z.leb Z.ltb Z.compare andb bind].
  rewrite Z.shiftr_div_pow2 by lia. change (2 ^ 1) with 2.
  rewrite MaskIfLessThan_eq, land_mask_1.
  assert (Hb : 0 <= b2z (x <? 0) <= 1) by (destruct (x <? 0); cbn; lia).
  assert (Hh : 0 <= (2 ^ e - 1) / 2 /\ (2 ^ e - 1) / 2 * 2 <= 2 ^ e - 1) by lia.
  assert (HW : 2 <= 2 ^ (w - 1)) by (destruct Hw; subst w; pows; lia).
  unfold fits in Hx.
  unfold Add. change (1 <? 32) with true. cbn [bind]. rewrite norm_fits; [|destruct Hw; lia|unfold int_min, int_max; lia].
  cbn [bind]. unfold ShiftRight.
  replace ((0 <=? e) && (e <? 32)) with true by (destruct Hw; lia). cbn [bind].
  rewrite MaskIfGreaterThan_eq, land_mask_1, Z.shiftr_div_pow2 by lia.
  rewrite rdpot_div by (try apply pow2_1_or_even; lia).
  rewrite norm_fits; [reflexivity|destruct Hw; lia|].
  unfold int_min, int_max.
  pose proof (rnd_away_range x (2 ^ e) (- 2 ^ (w - 1)) (2 ^ (w - 1) - 1)). lia.
Qed.

Lemma rdpot_spec m w x e : w1632 w -> fits w x -> 0 <= e <= w - 1 ->
  exists q, RoundingDivideByPOT m w x e = Some q /\ nearest_away q x (2 ^ e) /\ fits w q.
Proof.
  intros Hw Hx He. exists (rnd_away x (2 ^ e)).
  assert (Hpe : 0 < 2 ^ e) by (apply Z.pow_pos_nonneg; lia).
  split; [apply rdpot_eq; assumption|]. split; [apply rnd_away_nearest; lia|].
  unfold fits in *. apply rnd_away_range; [lia|lia|].
  assert (2 <= 2 ^ (w - 1)) by (destruct Hw; subst w; pows; lia). lia.
Qed.

(* ShiftLeft *)
Lemma shl_eq m w a off : 0 <= off <= 30 ->
  ShiftLeft m w a off = Some (clampZ (int_min w) (int_max w) (a * 2 ^ off)).
Proof.
  intros Ho. unfold ShiftLeft, one_shl_int.
  replace ((0 <=? off) && (off <=? 31)) with true by lia.
  assert (2 ^ off <= 2 ^ 30) by (apply Z.pow_le_mono_r; lia).
  assert (0 < 2 ^ off) by (apply Z.pow_pos_nonneg; lia).
  change (2 ^ 30) with 1073741824 in *.
  rewrite norm_fits by (unfold int_min, int_max; pows; lia).
  cbn [bind]. unfold clampZ. do 2 f_equal. rewrite Z.gtb_ltb. reflexivity.
Qed.

Lemma srmpot_pos_eq m w e x : w1632 w -> fits w x -> 1 <= e <= w - 1 -> e <= 30 ->
  SaturatingRoundingMultiplyByPOT m w e x = Some (clamp_int w (x * 2 ^ e)).
Proof.
  intros Hw Hx He He30. unfold SaturatingRoundingMultiplyByPOT.
  replace (e =? 0) with false by lia. replace (e >? 0) with true by lia.
  unfold one_shl_int. replace ((0 <=? w - 1 - e) && (w - 1 - e <=? 31)) with true
    by (destruct Hw; lia).
  assert (Hp : 0 < 2 ^ (w - 1 - e)) by (apply Z.pow_pos_nonneg; lia).
  assert (Hpe : 0 < 2 ^ e) by (apply Z.pow_pos_nonneg; lia).
  assert (Hprod : 2 ^ (w - 1 - e) * 2 ^ e = 2 ^ (w - 1)).
  { rewrite <- Z.pow_add_r by lia. f_equal. lia. }
  assert (Hle : 2 * 2 ^ (w - 1 - e) <= 2 ^ (w - 1)).
  { rewrite <- Hprod. assert (2 ^ 1 <= 2 ^ e) by (apply Z.pow_le_mono_r; lia).
    change (2 ^ 1) with 2 in *. nia. }
  rewrite norm_fits.
  2: lia.
  2:{ unfold int_min, int_max. pows. destruct Hw; subst w; pows; lia. }
  cbn [bind].
  rewrite !wrapS_small by (try (destruct Hw; lia); unfold int_min, int_max; lia).
  rewrite shl_eq by (destruct Hw; lia). cbn [bind].
  rewrite MaskIfGreaterThan_eq, MaskIfLessThan_eq, !sel_mask.
  f_equal. unfold clamp_int, clampZ, int_min, int_max, fits in *.
  destruct (Z.ltb_spec x (- (2 ^ (w - 1 - e) - 1))) as [H1|H1];
  destruct (Z.gtb_spec x (2 ^ (w - 1 - e) - 1)) as [H2|H2].
  - lia.
  - assert (x * 2 ^ e <= - 2 ^ (w - 1)) by nia.
    destruct (Z.ltb_spec (x * 2 ^ e) (- 2 ^ (w - 1))); [reflexivity|].
    destruct (Z.ltb_spec (2 ^ (w - 1) - 1) (x * 2 ^ e)); lia.
  - assert (2 ^ (w - 1) <= x * 2 ^ e) by nia.
    destruct (Z.ltb_spec (x * 2 ^ e) (- 2 ^ (w - 1))); [lia|].
    destruct (Z.ltb_spec (2 ^ (w - 1) - 1) (x * 2 ^ e)); lia.
  - reflexivity.
Qed.

Lemma srmpot_neg_eq m w e x : w1632 w -> fits w x -> - (w - 1) <= e < 0 ->
  SaturatingRoundingMultiplyByPOT m w e x = Some (rnd_away x (2 ^ (- e))).
Proof.
  intros Hw Hx He. unfold SaturatingRoundingMultiplyByPOT.
  replace (e =? 0) with false by lia. replace (e >? 0) with false by lia.
  apply rdpot_eq; auto; lia.
Qed.

Lemma clamp_int_fits w x : 1 <= w -> fits w (clamp_int w x).
Proof.
  intros Hw. unfold fits, clamp_int, clampZ.
  assert (0 < 2 ^ (w - 1)) by (apply Z.pow_pos_nonneg; lia).
  destruct (Z.ltb_spec x (- 2 ^ (w - 1))), (Z.ltb_spec (2 ^ (w - 1) - 1) x); lia.
Qed.

(* RoundingHalfSum *)
Lemma rhs_eq w a b : 2 <= w -> fits w a -> fits w b -> RoundingHalfSum w a b = rnd_away (a + b) 2.
Proof.
  intros Hw Ha Hb. unfold RoundingHalfSum.
  assert (0 < 2 ^ (w - 1)) by (apply Z.pow_pos_nonneg; lia).
  assert (E : Z.quot (a + b + (if a + b >=? 0 then 1 else -1)) 2 = rnd_away (a + b) 2).
  { destruct (Z.geb_spec (a + b) 0) as [H0|H0].
    - rewrite rnd_away_nonneg by lia. unfold rnd_up. rewrite Z.quot_div_nonneg by lia. lia.
    - rewrite rnd_away_neg by lia.
      replace (a + b + -1) with (- (- (a + b) + 1)) by lia.
      rewrite Z.quot_opp_l, Z.quot_div_nonneg by lia. lia. }
  rewrite E. apply wrapS_small; [lia|]. unfold fits, int_min, int_max in *.
  destruct (Z.lt_ge_cases (a + b) 0) as [|].
  - rewrite rnd_away_neg by lia. lia.
  - rewrite rnd_away_nonneg by lia. unfold rnd_up. lia.
Qed.

Lemma sat_add_eq w a b : 1 <= w -> SaturatingAdd w a b = clamp_int w (a + b).
Proof.
  intros Hw. unfold SaturatingAdd.
  assert (0 < 2 ^ (w - 1)) by (apply Z.pow_pos_nonneg; lia).
  rewrite wrapS_small; [|lia|unfold int_min, int_max; lia].
  unfold clamp_int, clampZ, int_min, int_max.
  destruct (Z.ltb_spec (a + b) (- 2 ^ (w - 1))), (Z.ltb_spec (2 ^ (w - 1) - 1) (a + b)); lia.
Qed.

Lemma rci_eq m w v : w1632 w -> fits 32 v ->
  RescaleConstantInitializer m w v = Some (wrapS w (rnd_away v (2 ^ (32 - w)))).
Proof.
  intros Hw Hv. unfold RescaleConstantInitializer.
  rewrite rdpot_eq; [reflexivity|right; reflexivity|assumption|destruct Hw; lia].
Qed.

(* ---------------- statements used by the property files ---------------- *)
Lemma srdhm_full w a b : (w = 16 \/ w = 32) -> fits w a -> fits w b ->
  let r := SaturatingRoundingDoublingHighMul w a b in
  fits w r /\
  (a = - 2 ^ (w - 1) /\ b = - 2 ^ (w - 1) -> r = 2 ^ (w - 1) - 1) /\
  (~ (a = - 2 ^ (w - 1) /\ b = - 2 ^ (w - 1)) -> nearest_up r (a * b) (2 ^ (w - 1))) /\
  (fits (2 * w) (a * b) /\ fits (2 * w) (a * b + 2 ^ (w - 2)) /\
   fits (2 * w) (a * b + (1 - 2 ^ (w - 2)))).
Proof.
  intros Hw Ha Hb r. subst r.
  split; [apply srdhm_fits; assumption|].
  split; [intros [-> ->]; apply srdhm_sat; assumption|].
  split; [intros; apply srdhm_spec; assumption|].
  unfold fits in *. destruct Hw; subst w; pows.
  - change (2 ^ (2 * 16 - 1)) with 2147483648.
    assert (-32768 * 32768 <= a * b <= 32768 * 32768) by nia. lia.
  - change (2 ^ (2 * 32 - 1)) with 9223372036854775808.
    assert (-2147483648 * 2147483648 <= a * b <= 2147483648 * 2147483648) by nia. lia.
Qed.

Lemma rdpot16_large_refuted :
  exists x e q, fits 16 x /\ 0 <= e <= 31 /\
    RoundingDivideByPOT Wrap 16 x e = Some q /\ ~ nearest q x (2 ^ e).
Proof.
  exists 0, 16, 1. unfold fits, nearest.
  split; [cbn; lia|]. split; [lia|]. split; [vm_compute; reflexivity|].
  change (2 ^ 16) with 65536. lia.
Qed.

Lemma srmpot_full m w e x : (w = 16 \/ w = 32) -> fits w x ->
  - (w - 1) <= e <= w - 1 -> e <= 30 ->
  exists r, SaturatingRoundingMultiplyByPOT m w e x = Some r /\ fits w r /\
    (0 <= e -> r = clamp_int w (x * 2 ^ e)) /\
    (e < 0 -> nearest_away r x (2 ^ (- e))).
Proof.
  intros Hw Hx He He30.
  assert (HW : 2 <= 2 ^ (w - 1)) by (destruct Hw; subst w; pows; lia).
  destruct (Z.lt_trichotomy e 0) as [H|[->|H]].
  - exists (rnd_away x (2 ^ (- e))).
    assert (Hpe : 0 < 2 ^ (- e)) by (apply Z.pow_pos_nonneg; lia).
    split; [apply srmpot_neg_eq; auto; lia|]. split.
    + unfold fits in *. apply rnd_away_range; lia.
    + split; [lia|]. intros _. apply rnd_away_nearest. lia.
  - exists x. split; [reflexivity|]. split; [assumption|]. split; [|lia].
    intros _. unfold clamp_int, clampZ, fits in *. change (2 ^ 0) with 1. rewrite Z.mul_1_r.
    destruct (Z.ltb_spec x (- 2 ^ (w - 1))), (Z.ltb_spec (2 ^ (w - 1) - 1) x); lia.
  - exists (clamp_int w (x * 2 ^ e)). split; [apply srmpot_pos_eq; auto; lia|].
    split; [apply clamp_int_fits; lia|]. split; [auto|lia].
Qed.

Lemma rescale_full m w src dst x : (w = 16 \/ w = 32) -> fits w x ->
  0 <= src < w -> 0 <= dst < w -> src - dst <= 30 ->
  exists r, Rescale m w src dst x = Some r /\ fits w r /\
    (* fewer or equal integer bits: the same real number, clamped to the range *)
    (dst <= src -> r = clamp_int w (x * 2 ^ (src - dst))) /\
    (* more integer bits: nearest representable number, ties away from zero *)
    (src < dst -> nearest_away r x (2 ^ (dst - src))).
Proof.
  intros Hw Hx Hs Hd H30. unfold Rescale.
  destruct (srmpot_full m w (src - dst) x Hw Hx ltac:(lia) H30) as [r [E [F [P N]]]].
  exists r. split; [exact E|]. split; [exact F|]. split.
  - intros H. apply P. lia.
  - intros H. replace (dst - src) with (- (src - dst)) by lia. apply N. lia.
Qed.

Lemma rhs_full w a b : (w = 16 \/ w = 32) -> fits w a -> fits w b ->
  nearest_away (RoundingHalfSum w a b) (a + b) 2 /\ fits w (RoundingHalfSum w a b) /\
  (RoundingHalfSum w a b = (a + b + 1) / 2 <-> ~ (a + b < 0 /\ (a + b) mod 2 = 1)).
Proof.
  intros Hw Ha Hb.
  assert (Hw2 : 2 <= w) by (destruct Hw; lia).
  assert (HW : 2 <= 2 ^ (w - 1)) by (destruct Hw; subst w; pows; lia).
  rewrite rhs_eq by assumption.
  split; [apply rnd_away_nearest; lia|].
  unfold fits in *.
  destruct (Z.lt_ge_cases (a + b) 0) as [|].
  - rewrite rnd_away_neg by lia. split; [lia|]. lia.
  - rewrite rnd_away_nonneg by lia. unfold rnd_up. split; lia.
Qed.

Lemma rhs_vrhadd_refuted : exists a b, fits 32 a /\ fits 32 b /\
  RoundingHalfSum 32 a b <> (a + b + 1) / 2.
Proof.
  exists (-1), 0. unfold fits. split; [cbn; lia|]. split; [cbn; lia|]. vm_compute. discriminate.
Qed.

Lemma sat_add_full w a b : (w = 8 \/ w = 16) -> SaturatingAdd w a b = clamp_int w (a + b).
Proof. intros [-> | ->]; apply sat_add_eq; lia. Qed.

Lemma add_sat_if16_full m a b :
  (AddSaturatingIf16Bit m 16 a b = Some (clamp_int 16 (a + b))) /\
  (fits 32 (a + b) -> AddSaturatingIf16Bit m 32 a b = Some (a + b)).
Proof.
  unfold AddSaturatingIf16Bit. cbn [Z.eqb]. split.
  - change (16 =? 16) with true. cbn iota. rewrite sat_add_eq by lia. reflexivity.
  - intros H. change (32 =? 16) with false. cbn iota. apply norm_fits; [lia|].
    apply fits_int, H.
Qed.

Lemma masks_full a b :
  MaskIfNonZero a = (if Z.eq_dec a 0 then 0 else -1) /\
  MaskIfZero a = (if Z.eq_dec a 0 then -1 else 0) /\
  (MaskIfEqual a b = -1 /\ a = b \/ MaskIfEqual a b = 0 /\ a <> b) /\
  (MaskIfNotEqual a b = -1 /\ a <> b \/ MaskIfNotEqual a b = 0 /\ a = b) /\
  (MaskIfGreaterThan a b = -1 /\ a > b \/ MaskIfGreaterThan a b = 0 /\ ~ a > b) /\
  (MaskIfGreaterThanOrEqual a b = -1 /\ a >= b \/ MaskIfGreaterThanOrEqual a b = 0 /\ ~ a >= b) /\
  (MaskIfLessThan a b = -1 /\ a < b \/ MaskIfLessThan a b = 0 /\ ~ a < b) /\
  (MaskIfLessThanOrEqual a b = -1 /\ a <= b \/ MaskIfLessThanOrEqual a b = 0 /\ ~ a <= b).
Proof.
  unfold MaskIfZero, MaskIfEqual, MaskIfNotEqual, MaskIfGreaterThan, MaskIfGreaterThanOrEqual,
    MaskIfLessThan, MaskIfLessThanOrEqual. rewrite !mask_b2z.
  repeat split.
  - rewrite mask_nz_spec. destruct (Z.eqb_spec a 0), (Z.eq_dec a 0); try reflexivity; contradiction.
  - destruct (Z.eqb_spec a 0), (Z.eq_dec a 0); try reflexivity; contradiction.
  - destruct (Z.eqb_spec a b); auto.
  - destruct (Z.eqb_spec a b); cbn; auto.
  - destruct (Z.gtb_spec a b); [left|right]; lia.
  - destruct (Z.geb_spec a b); [left|right]; lia.
  - destruct (Z.ltb_spec a b); [left|right]; lia.
  - destruct (Z.leb_spec a b); [left|right]; lia.
Qed.

Lemma select_full m t e :
  (m = -1 -> SelectUsingMask m t e = t) /\ (m = 0 -> SelectUsingMask m t e = e) /\
  (forall n, 0 <= n -> Z.testbit (SelectUsingMask m t e) n =
                       if Z.testbit m n then Z.testbit t n else Z.testbit e n).
Proof.
  split; [intros ->; apply sel_true|]. split; [intros ->; apply sel_false|].
  intros; apply select_bitwise; assumption.
Qed.

(* values in Q *)
From Coq Require Import QArith Qabs Qpower.
Local Open Scope Z_scope.

Lemma Qdiv_inject_le a b c d : 0 < b -> 0 < d -> a * d <= c * b ->
  (inject_Z a / inject_Z b <= inject_Z c / inject_Z d)%Q.
Proof.
  intros Hb Hd H.
  apply Qle_shift_div_l; [unfold Qlt; cbn; lia|].
  setoid_replace (inject_Z a / inject_Z b * inject_Z d)%Q with (inject_Z (a * d) / inject_Z b)%Q.
  2:{ rewrite inject_Z_mult. field. unfold Qeq; cbn; lia. }
  apply Qle_shift_div_r; [unfold Qlt; cbn; lia|].
  rewrite <- inject_Z_mult. rewrite <- Zle_Qle. lia.
Qed.

Lemma fmul_value w iba ibb a b : (w = 16 \/ w = 32) -> 0 <= iba -> 0 <= ibb ->
  fits w a -> fits w b -> ~ (a = - 2 ^ (w - 1) /\ b = - 2 ^ (w - 1)) ->
  (Qabs (fpvalue w (iba + ibb) (FMul w a b) - fpvalue w iba a * fpvalue w ibb b)
   <= (1 # 2) * ulp w (iba + ibb))%Q.
Proof.
  intros Hw Hia Hib Ha Hb Hn.
  destruct (srdhm_spec w a b Hw Ha Hb Hn) as [Hnear _]. unfold nearest in Hnear.
  unfold FMul. set (r := SaturatingRoundingDoublingHighMul w a b) in *. clearbody r.
  unfold fpvalue, ulp.
  assert (HP : 0 < 2 ^ (w - 1)) by (destruct Hw; subst w; pows; lia).
  set (P := 2 ^ (w - 1)) in *. clearbody P.
  rewrite Z.pow_add_r by lia.
  assert (HA : 0 < 2 ^ iba) by (apply Z.pow_pos_nonneg; lia).
  assert (HB : 0 < 2 ^ ibb) by (apply Z.pow_pos_nonneg; lia).
  set (A := 2 ^ iba) in *. set (B := 2 ^ ibb) in *. clearbody A B.
  assert (HPQ : ~ inject_Z P == 0) by (unfold Qeq; cbn; lia).
  setoid_replace (inject_Z (r * (A * B)) / inject_Z P - inject_Z (a * A) / inject_Z P * (inject_Z (b * B) / inject_Z P))%Q
    with (inject_Z ((r * P - a * b) * (A * B)) / inject_Z (P * P))%Q.
  2:{ unfold Zminus. rewrite ?inject_Z_mult, ?inject_Z_plus, ?inject_Z_opp, ?inject_Z_mult. field. exact HPQ. }
  setoid_replace ((1 # 2) * (inject_Z (A * B) / inject_Z P))%Q
    with (inject_Z (A * B) / inject_Z (2 * P))%Q.
  2:{ rewrite ?inject_Z_mult. field. exact HPQ. }
  apply Qabs_Qle_condition. split.
  - setoid_replace (- (inject_Z (A * B) / inject_Z (2 * P)))%Q with (inject_Z (- (A * B)) / inject_Z (2 * P))%Q.
    2:{ rewrite ?inject_Z_opp, ?inject_Z_mult. field. exact HPQ. }
    apply Qdiv_inject_le; [lia|nia|].
    assert (0 < A * B) by nia. set (AB := A * B) in *. clearbody AB.
    assert (- P <= 2 * (r * P - a * b)) by lia.
    set (D := r * P - a * b) in *. clearbody D. nia.
  - apply Qdiv_inject_le; [nia|lia|].
    assert (0 < A * B) by nia. set (AB := A * B) in *. clearbody AB.
    assert (2 * (r * P - a * b) <= P) by lia.
    set (D := r * P - a * b) in *. clearbody D. nia.
Qed.

Lemma exact_mul_value w ib e a : 0 < w -> 0 <= ib -> 0 <= ib + e ->
  (fpvalue w (e + ib) (ExactMulByPot a) == fpvalue w ib a * (2 ^ e))%Q.
Proof.
  intros Hw H1 H2. unfold fpvalue, ExactMulByPot.
  assert (HP : 0 < 2 ^ (w - 1)) by (apply Z.pow_pos_nonneg; lia).
  assert (HPQ : ~ inject_Z (2 ^ (w - 1)) == 0) by (unfold Qeq; cbn; lia).
  assert (H2q : ~ 2 == 0) by (unfold Qeq; cbn; lia).
  rewrite !inject_Z_mult.
  rewrite !(Zpower_Qpower 2) by lia. change (inject_Z 2) with 2%Q.
  rewrite Qpower_plus by exact H2q.
  field. rewrite <- (Zpower_Qpower 2) by lia. exact HPQ.
Qed.

Lemma constant_pot_value w ib e r : (w = 16 \/ w = 32) -> 0 <= ib < w ->
  ConstantPOT w ib e = Some r -> kFractionalBits w ib + e <= w - 2 ->
  (fpvalue w ib r == 2 ^ e)%Q /\ fits w r.
Proof.
  intros Hw Hib. unfold ConstantPOT, kFractionalBits.
  destruct ((0 <=? w - 1 - ib + e) && (w - 1 - ib + e <? 31)) eqn:E; [|discriminate].
  intros H Hb. apply Some_inj in H. subst r.
  assert (Hp : 0 < 2 ^ (w - 1 - ib + e)) by (apply Z.pow_pos_nonneg; lia).
  assert (Hp2 : 2 * 2 ^ (w - 1 - ib + e) <= 2 ^ (w - 1)).
  { rewrite <- Z.pow_succ_r by lia. apply Z.pow_le_mono_r; lia. }
  rewrite wrapS_small by (unfold int_min, int_max; lia).
  split; [|unfold fits; lia].
  unfold fpvalue.
  assert (H2q : ~ 2 == 0) by (unfold Qeq; cbn; lia).
  rewrite !inject_Z_mult.
  rewrite !(Zpower_Qpower 2) by lia. change (inject_Z 2) with 2%Q.
  replace (w - 1 - ib + e) with (w - 1 + e + (- ib)) by lia.
  rewrite !Qpower_plus, Qpower_opp by exact H2q.
  field. split; intros K; apply Qpower_not_0 in K; auto.
Qed.

Lemma one_value w ib : (w = 16 \/ w = 32) -> 0 <= ib < w ->
  (1 <= ib -> (fpvalue w ib (One w ib) == 1)%Q) /\
  (ib = 0 -> (fpvalue w ib (One w ib) == 1 - ulp w 0)%Q) /\ fits w (One w ib).
Proof.
  intros Hw Hib. unfold One. split.
  { intros H. replace (ib =? 0) with false by lia.
    unfold kFractionalBits.
    assert (Hp : 0 < 2 ^ (w - 1 - ib)) by (apply Z.pow_pos_nonneg; lia).
    assert (Hp2 : 2 * 2 ^ (w - 1 - ib) <= 2 ^ (w - 1)).
    { rewrite <- Z.pow_succ_r by lia. apply Z.pow_le_mono_r; lia. }
    rewrite wrapS_small by (unfold int_min, int_max; lia).
    unfold fpvalue. rewrite <- Z.pow_add_r by lia.
    replace (w - 1 - ib + ib) with (w - 1) by lia. field.
    unfold Qeq; cbn. lia. }
  split.
  { intros ->. cbn [Z.eqb]. destruct Hw; subst w; reflexivity. }
  unfold fits. destruct (Z.eqb_spec ib 0).
  - unfold int_max. destruct Hw; subst w; pows; lia.
  - apply wrapS_range. lia.
Qed.

Lemma rdpot_full m w x e : (w = 16 \/ w = 32) -> fits w x -> 0 <= e <= w - 1 ->
  exists q, RoundingDivideByPOT m w x e = Some q /\ nearest_away q x (2 ^ e) /\ fits w q.
Proof.
  intros Hw Hx He. exists (rnd_away x (2 ^ e)).
  assert (Hpe : 0 < 2 ^ e) by (apply Z.pow_pos_nonneg; lia).
  assert (HW : 2 <= 2 ^ (w - 1)) by (destruct Hw; subst w; pows; lia).
  split; [apply rdpot_eq; assumption|]. split; [apply rnd_away_nearest; lia|].
  unfold fits in *. apply rnd_away_range; lia.
Qed.

Lemma rescale31_refuted : exists x, fits 32 x /\ Rescale Trap 32 31 0 x = None.
Proof. exists 0. split; [unfold fits; cbn; lia | reflexivity]. Qed.
