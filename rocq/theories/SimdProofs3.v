(* SimdProofs3.v: high products, divisions by powers of two, All and Any *)
From Verif Require Import Base BaseLemmas FixedPointModel FixedPointSpec FixedPointProofs SimdModel SimdProofs SimdProofs2.

(* ------------------------------------------------------------------ *)
(* SaturatingRoundingDoublingHighMul, 32-bit SSE: even and odd lanes *)
Lemma four i : 0 <= i < 4 -> i = 0 \/ i = 1 \/ i = 2 \/ i = 3. Proof. lia. Qed.
Lemma blend_lane i a b : 0 <= i < 4 -> get 32 i (mm_blend_epi16 a b 204) = if Z.odd i then get 32 i b else get 32 i a.
Proof.
  intros Hi. set (c := if Z.odd i then b else a).
  transitivity (get 32 i c); [|unfold c; destruct (Z.odd i); reflexivity].
  rewrite <- (wrapS_get 32 i c) by lia. apply get_ext; [lia|lia|]. intros j Hj. rewrite get_bits by lia.
  unfold mm_blend_epi16. destruct (Z_lt_le_dec j 16).
  - replace (32 * i + j) with (16 * (2 * i) + j) by lia. rewrite pack_bits by (change (lanes 16) with 8; lia).
    unfold c. destruct (four i Hi) as [-> | [-> | [-> | ->]]]; cbn [Z.odd];
      (match goal with |- context [Z.testbit 204 ?k] => let b := eval vm_compute in (Z.testbit 204 k) in change (Z.testbit 204 k) with b end);
      cbn iota; rewrite get_bits by lia; f_equal; lia.
  - replace (32 * i + j) with (16 * (2 * i + 1) + (j - 16)) by lia. rewrite pack_bits by (change (lanes 16) with 8; lia).
    unfold c. destruct (four i Hi) as [-> | [-> | [-> | ->]]]; cbn [Z.odd];
      (match goal with |- context [Z.testbit 204 ?k] => let b := eval vm_compute in (Z.testbit 204 k) in change (Z.testbit 204 k) with b end);
      cbn iota; rewrite get_bits by lia; f_equal; lia.
Qed.
Lemma srli4_lane i a : 0 <= i -> get 32 i (mm_srli_si128 a 4) = get 32 (i + 1) a.
Proof.
  intros Hi. unfold get, mm_srli_si128. rewrite Z.shiftr_shiftr by lia. do 2 f_equal. lia.
Qed.
Lemma hi_lane k v : 0 <= k < 2 -> get 32 (2 * k + 1) v = wrapS 32 (get 64 k v / 2 ^ 32).
Proof.
  intros Hk. apply get_ext; [lia|lia|]. intros j Hj. rewrite <- Z.shiftr_div_pow2 by lia. rewrite Z.shiftr_spec by lia.
  rewrite get_bits by lia. f_equal. lia.
Qed.
Lemma hi_wrap z : wrapS 32 (wrapS 64 z / 2 ^ 32) = wrapS 32 (z / 2 ^ 32).
Proof.
  apply wrapS_ext; [lia|]. intros j Hj. rewrite <- !Z.shiftr_div_pow2 by lia. rewrite !Z.shiftr_spec by lia.
  rewrite bits_wrapS by lia. rewrite Z.min_l by lia. reflexivity.
Qed.
Lemma prod_lane k a b : 0 <= k < 2 ->
  get 32 (2 * k + 1) (mm_slli 64 (mm_add 64 (mm_mul_epi32 a b) (mm_set1 64 1073741824)) 1) =
  wrapS 32 ((get 32 (2 * k) a * get 32 (2 * k) b + 1073741824) / 2147483648).
Proof.
  intros Hk. assert (Hl : 0 <= k < lanes 64) by (unfold lanes; cbn; lia).
  rewrite hi_lane by lia. unfold mm_slli. rewrite get_map1 by lia. rewrite hi_wrap.
  replace (1 >? 64 - 1) with false by reflexivity. unfold mm_add. rewrite get_map2 by lia.
  unfold mm_mul_epi32, mm_set1. rewrite !get_pack by lia.
  rewrite wrapS_add_l, wrapS_add_r by lia. set (z := _ + 1073741824).
  apply wrapS_ext; [lia|]. intros j Hj. rewrite Z.shiftl_mul_pow2 by lia.
  rewrite <- !Z.shiftr_div_pow2 by lia. change 2147483648 with (2 ^ 31). rewrite <- Z.shiftr_div_pow2 by lia.
  rewrite <- Z.shiftl_mul_pow2 by lia. rewrite !Z.shiftr_spec by lia. rewrite Z.shiftl_spec by lia.
  rewrite bits_wrapS by lia. rewrite Z.min_l by lia. f_equal. lia.
Qed.
Lemma sse_mul32_raw i a b : 0 <= i < 4 ->
  get 32 i (sse_SaturatingRoundingDoublingHighMul32 a b) =
  if (get 32 i a =? -2147483648) && (get 32 i b =? -2147483648) then -2147483648
  else wrapS 32 ((get 32 i a * get 32 i b + 1073741824) / 2147483648).
Proof.
  intros Hi. assert (Hl : 0 <= i < lanes 32) by (unfold lanes; cbn; lia).
  assert (W : w1632 32) by now right.
  unfold sse_SaturatingRoundingDoublingHighMul32. rewrite (g_sse_sel 32 i W), (g_sse_and 32 i W), !(g_sse_eq 32 i W Hl), (g_dup 32 i W Hl).
  change (wrapS 32 (-2147483648)) with (-2147483648). unfold MaskIfEqual. rewrite !mask_ones.
  rewrite blend_lane by lia.
  assert (M : (if Z.odd i
     then get 32 i (mm_slli 64 (mm_add 64 (mm_mul_epi32 (mm_srli_si128 a 4) (mm_srli_si128 b 4)) (mm_set1 64 1073741824)) 1)
     else get 32 i (mm_srli_si128 (mm_slli 64 (mm_add 64 (mm_mul_epi32 a b) (mm_set1 64 1073741824)) 1) 4)) =
     wrapS 32 ((get 32 i a * get 32 i b + 1073741824) / 2147483648)).
  { destruct (four i Hi) as [-> | [-> | [-> | ->]]]; cbn [Z.odd].
    - rewrite srli4_lane by lia. exact (prod_lane 0 a b ltac:(lia)).
    - etransitivity; [exact (prod_lane 0 (mm_srli_si128 a 4) (mm_srli_si128 b 4) ltac:(lia))|]. rewrite !srli4_lane by lia. reflexivity.
    - rewrite srli4_lane by lia. exact (prod_lane 1 a b ltac:(lia)).
    - etransitivity; [exact (prod_lane 1 (mm_srli_si128 a 4) (mm_srli_si128 b 4) ltac:(lia))|]. rewrite !srli4_lane by lia. reflexivity. }
  rewrite M. set (x := get 32 i a). set (y := get 32 i b).
  destruct (x =? y) eqn:E1, (x =? -2147483648) eqn:E2; cbn [ones andb]; unfold BitAnd.
  - rewrite Z.land_diag, sel_true. replace (y =? -2147483648) with true by lia. reflexivity.
  - rewrite Z.land_0_r, sel_false. reflexivity.
  - rewrite Z.land_0_l, sel_false. replace (y =? -2147483648) with false by lia. reflexivity.
  - rewrite Z.land_0_l, sel_false. reflexivity.
Qed.
Lemma int_min32 : int_min 32 = -2147483648. Proof. reflexivity. Qed.
Lemma int_min16 : int_min 16 = -32768. Proof. reflexivity. Qed.
Lemma sse_mul32 i a b : 0 <= i < 4 -> ~ (get 32 i a = int_min 32 /\ get 32 i b = int_min 32) ->
  get 32 i (sse_SaturatingRoundingDoublingHighMul32 a b) = SaturatingRoundingDoublingHighMul 32 (get 32 i a) (get 32 i b).
Proof.
  intros Hi N. rewrite sse_mul32_raw by lia. assert (W : w1632 32) by now right.
  pose proof (srdhm_fits 32 (get 32 i a) (get 32 i b) W (get_fits 32 i a ltac:(lia)) (get_fits 32 i b ltac:(lia))) as F.
  rewrite (srdhm_eq 32 _ _ W) in * by (apply get_fits; lia). rewrite int_min32 in *.
  destruct ((get 32 i a =? -2147483648) && (get 32 i b =? -2147483648)) eqn:E; [exfalso; apply N; lia|].
  change (2 ^ (32 - 2)) with 1073741824 in *. change (2 ^ (32 - 1)) with 2147483648 in *.
  apply wrapS_small; [lia|]. now apply (proj1 (fits_int _ _)) in F.
Qed.
Lemma sse_mul32_min i a b : 0 <= i < 4 -> get 32 i a = int_min 32 -> get 32 i b = int_min 32 ->
  get 32 i (sse_SaturatingRoundingDoublingHighMul32 a b) = int_min 32 /\
  SaturatingRoundingDoublingHighMul 32 (get 32 i a) (get 32 i b) = int_max 32.
Proof. intros Hi Ea Eb. rewrite sse_mul32_raw by lia. rewrite Ea, Eb. split; reflexivity. Qed.

(* 16 bits *)
Lemma half_shift z : Z.shiftr (Z.shiftr z 14 + 1) 1 = (z + 16384) / 32768.
Proof.
  rewrite !Z.shiftr_div_pow2 by lia. change (2 ^ 14) with 16384. change (2 ^ 1) with 2.
  rewrite <- (Z.div_add z 1 16384) by lia. rewrite Z.div_div by lia. reflexivity.
Qed.
Lemma sse_mul16 i a b : 0 <= i < 8 ->
  get 16 i (sse_SaturatingRoundingDoublingHighMul16 a b) = SaturatingRoundingDoublingHighMul 16 (get 16 i a) (get 16 i b).
Proof.
  intros Hi. assert (Hl : 0 <= i < lanes 16) by (unfold lanes; cbn; lia). assert (W : w1632 16) by now left.
  unfold sse_SaturatingRoundingDoublingHighMul16, mm_xor. rewrite get_xor by lia.
  rewrite (g_cmpeq 16 i W Hl), (g_dup 16 i W Hl).
  change (wrapS 16 32768) with (-32768). unfold MaskIfEqual. rewrite mask_ones.
  unfold mm_mulhrs_epi16. rewrite get_map2 by lia. rewrite half_shift.
  set (x := get 16 i a). set (y := get 16 i b).
  pose proof (srdhm_fits 16 x y W (get_fits 16 i a ltac:(lia)) (get_fits 16 i b ltac:(lia))) as F.
  pose proof (get_range 16 i a ltac:(lia)) as Ra. pose proof (get_range 16 i b ltac:(lia)) as Rb. fold x in Ra. fold y in Rb.
  rewrite (srdhm_eq 16 x y W) in * by (apply get_fits; lia). rewrite int_min16 in *.
  change (2 ^ (16 - 2)) with 16384 in *. change (2 ^ (16 - 1)) with 32768 in *.
  destruct ((x =? -32768) && (y =? -32768)) eqn:E.
  - assert (x = -32768) as -> by lia. assert (y = -32768) as -> by lia. reflexivity.
  - apply (proj1 (fits_int _ _)) in F. rewrite wrapS_small by (lia || exact F).
    replace ((x * y + 16384) / 32768 =? -32768) with false; [apply Z.lxor_0_r|].
    symmetry. apply Z.eqb_neq. intros Q. change (int_max 16) with 32767 in *.
    assert (x * y + 16384 < -32768 * 32768 + 32768) by lia.
    assert (- (32768 * 32767) <= x * y); [|lia].
    destruct (Z.eq_dec x (-32768)) as [-> |]; destruct (Z.eq_dec y (-32768)) as [-> |]; nia.
Qed.

(* NEON *)
Lemma neon_mul w i a b : w1632 w -> 0 <= i < lanes w ->
  get w i (neon_SaturatingRoundingDoublingHighMul w a b) = SaturatingRoundingDoublingHighMul w (get w i a) (get w i b).
Proof.
  intros W Hi. pose proof (w1 w W) as H1. unfold neon_SaturatingRoundingDoublingHighMul, vqrdmulh. rewrite get_map2 by lia.
  rewrite wrapS_small by (try apply saturate_fits; lia).
  set (x := get w i a). set (y := get w i b).
  assert (Fx : fits w x) by (apply get_fits; lia). assert (Fy : fits w y) by (apply get_fits; lia).
  pose proof (srdhm_fits w x y W Fx Fy) as F. rewrite srdhm_eq in * by assumption.
  assert (Q : Z.shiftr (2 * x * y + 2 ^ (w - 1)) w = (x * y + 2 ^ (w - 2)) / 2 ^ (w - 1)).
  { rewrite Z.shiftr_div_pow2 by lia. rewrite (pow_split w) by lia.
    assert (E : 2 ^ (w - 1) = 2 * 2 ^ (w - 2)) by (rewrite <- Z.pow_succ_r by (destruct W; lia); f_equal; lia).
    rewrite E at 1. replace (2 * x * y + 2 * 2 ^ (w - 2)) with (2 * (x * y + 2 ^ (w - 2))) by lia.
    apply Z.div_mul_cancel_l; [|lia]. assert (0 < 2 ^ (w - 1)) by (apply Z.pow_pos_nonneg; lia). lia. }
  rewrite Q. destruct ((x =? int_min w) && (y =? int_min w)) eqn:E.
  - assert (x = int_min w) as -> by lia. assert (y = int_min w) as -> by lia. destruct W; subst w; reflexivity.
  - apply (proj1 (fits_int _ _)) in F. unfold saturate. revert F. generalize ((x * y + 2 ^ (w - 2)) / 2 ^ (w - 1)). intros q F. lia.
Qed.

(* ------------------------------------------------------------------ *)
(* RoundingDivideByPOT *)
Lemma fixup_div w x e : w1632 w -> fits w x -> 1 <= e <= w - 1 ->
  (saturate w (x + (if x <? 0 then -1 else 0)) + 2 ^ (e - 1)) / 2 ^ e = rnd_away x (2 ^ e).
Proof.
  intros W Hx He. unfold fits in Hx. unfold saturate, int_min, int_max.
  assert (Hh : 0 < 2 ^ (e - 1)) by (apply Z.pow_pos_nonneg; lia).
  assert (Ed : 2 ^ e = 2 * 2 ^ (e - 1)) by (apply pow_split; lia).
  assert (EK : 2 ^ (w - 1) = 2 ^ (w - 1 - e) * (2 * 2 ^ (e - 1))) by (rewrite <- Ed, <- Z.pow_add_r by lia; f_equal; lia).
  rewrite Ed. set (h := 2 ^ (e - 1)) in *. set (K := 2 ^ (w - 1 - e)) in *.
  destruct (x <? 0) eqn:S.
  - rewrite rnd_away_neg by lia.
    replace (2 * x + 2 * h - 1) with (2 * (x + h) - 1) by lia.
    replace ((2 * (x + h) - 1) / (2 * (2 * h))) with ((x + h - 1) / (2 * h)).
    2: { rewrite <- (Z.div_div (2 * (x + h) - 1) 2 (2 * h)) by lia. f_equal. lia. }
    destruct (Z.eq_dec x (- 2 ^ (w - 1))) as [-> | N].
    + replace (Z.max _ _) with (- 2 ^ (w - 1)) by lia. rewrite EK.
      transitivity (- K); [|symmetry].
      * symmetry. apply (Z.div_unique _ _ (- K) h); lia.
      * symmetry. apply (Z.div_unique _ _ (- K) (h - 1)); lia.
    + replace (Z.max _ _) with (x - 1) by lia. f_equal. lia.
  - rewrite rnd_away_nonneg by lia. unfold rnd_up.
    replace (Z.max _ _) with x by lia. replace (2 * x + 2 * h) with (2 * (x + h)) by lia.
    symmetry. apply Z.div_mul_cancel_l; lia.
Qed.
Lemma sign_shift w x : w1632 w -> fits w x -> Z.shiftr x (w - 1) = if x <? 0 then -1 else 0.
Proof.
  intros W Hx. rewrite Z.shiftr_div_pow2 by (destruct W; lia). unfold fits in Hx.
  assert (0 < 2 ^ (w - 1)) by (apply Z.pow_pos_nonneg; destruct W; lia).
  destruct (x <? 0) eqn:E; [symmetry; apply (Z.div_unique x (2 ^ (w - 1)) (-1) (x + 2 ^ (w - 1))); lia|apply Z.div_small; lia].
Qed.
Lemma rnd_away_1 x : rnd_away x 1 = x.
Proof. unfold rnd_away. replace (2 * Z.abs x + 1) with (1 + Z.abs x * 2) by lia. rewrite Z.div_add by lia. change (1 / (2 * 1)) with 0. lia. Qed.
Lemma away_fits w x e : w1632 w -> fits w x -> 0 <= e -> int_min w <= rnd_away x (2 ^ e) <= int_max w.
Proof.
  intros W Hx He. unfold fits in Hx. unfold int_min, int_max. assert (0 < 2 ^ e) by (apply Z.pow_pos_nonneg; lia).
  assert (0 < 2 ^ (w - 1)) by (apply Z.pow_pos_nonneg; destruct W; lia).
  apply rnd_away_range; lia.
Qed.
Lemma neon_rdpotv w i x e : w1632 w -> 0 <= i < lanes w -> 0 <= get w i e <= w - 1 ->
  get w i (neon_RoundingDivideByPOTV w x e) = rnd_away (get w i x) (2 ^ get w i e).
Proof.
  intros W Hi He. pose proof (w1 w W) as H1. unfold neon_RoundingDivideByPOTV, vrshl. rewrite get_map2 by lia.
  unfold vqadd. rewrite (g_qadd w i W Hi). rewrite <- saturate_clamp by lia.
  unfold vshr_n. rewrite get_map1 by lia. unfold vand. rewrite get_and by lia.
  assert (EN : get w i (vneg w e) = - get w i e).
  { rewrite (g_vneg w i W Hi). apply wrapS_small; [lia|].
    unfold int_min, int_max. destruct W; subst w; cbn; lia. }
  rewrite EN. set (k := get w i e) in *. set (y := get w i x).
  assert (Fy : fits w y) by (apply get_fits; lia).
  assert (FA : fits w (Z.land y (- k))).
  { unfold y. rewrite <- EN, <- get_and by lia. apply get_fits. lia. }
  rewrite (sign_shift w _ W FA), land_neg.
  rewrite (wrapS_small 8) by (unfold int_min, int_max; cbn; destruct W; lia).
  destruct (Z.eq_dec k 0) as [E0 | N].
  - rewrite E0. replace (y <? 0) with (y <? 0) by reflexivity. change (- 0 <? 0) with false. rewrite Bool.andb_false_r.
    rewrite wrapS_0 by exact W. change (- 0 >=? 0) with true. cbn iota. change (2 ^ 0) with 1. rewrite rnd_away_1.
    change (- 0) with 0. rewrite Z.shiftl_0_r, Z.add_0_r. unfold saturate.
    apply (proj1 (fits_int _ _)) in Fy. rewrite wrapS_small; lia.
  - replace (- k <? 0) with true by lia. rewrite Bool.andb_true_r. replace (- k >=? 0) with false by lia.
    replace (wrapS w (if y <? 0 then -1 else 0)) with (if y <? 0 then -1 else 0)
      by (destruct (y <? 0); symmetry; [apply wrapS_m1|apply wrapS_0]; exact W).
    rewrite Z.opp_involutive, Z.shiftr_div_pow2 by lia. rewrite fixup_div by (assumption || lia).
    apply wrapS_small; [lia|]. apply away_fits; [exact W|exact Fy|lia].
Qed.
Lemma neon_rdpot w i x e : w1632 w -> 0 <= i < lanes w -> 0 <= e <= w - 1 ->
  get w i (neon_RoundingDivideByPOT w x e) = rnd_away (get w i x) (2 ^ e).
Proof.
  intros W Hi He. pose proof (w1 w W) as H1.
  assert (R : int_min w <= e <= int_max w /\ int_min w <= - e <= int_max w) by (unfold int_min, int_max; destruct W; subst w; cbn; lia).
  assert (E1 : get w i (vdupq_n w e) = e) by (rewrite (g_ndup w i W Hi); apply wrapS_small; lia).
  rewrite <- E1 at 2. rewrite <- neon_rdpotv by (assumption || (rewrite E1; lia)).
  unfold neon_RoundingDivideByPOT, neon_RoundingDivideByPOTV, vrshl, vqadd, vshr_n, vand.
  rewrite !get_map2, !get_map1, !get_and by lia.
  rewrite (g_vneg w i W Hi), E1, (g_ndup w i W Hi). reflexivity.
Qed.
Lemma neon_srm w i e x : w1632 w -> 0 <= i < lanes w -> - (w - 1) <= e <= w - 1 -> e <= 30 ->
  SaturatingRoundingMultiplyByPOT Trap w e (get w i x) = Some (get w i (neon_SaturatingRoundingMultiplyByPOT w e x)).
Proof.
  intros W Hi He H30. pose proof (w1 w W) as H1. assert (Fx : fits w (get w i x)) by (apply get_fits; lia).
  unfold neon_SaturatingRoundingMultiplyByPOT. destruct (e =? 0) eqn:E0.
  { assert (e = 0) by lia. subst e. reflexivity. }
  destruct (e >? 0) eqn:E1.
  - rewrite srmpot_pos_eq by (assumption || lia). unfold vqshl_n. rewrite get_map1 by lia.
    rewrite wrapS_small by (try apply saturate_fits; lia). rewrite saturate_clamp, Z.shiftl_mul_pow2 by lia. reflexivity.
  - rewrite srmpot_neg_eq by (assumption || lia). f_equal. unfold vrshr_n. rewrite get_map1 by lia.
    unfold vqadd. rewrite (g_qadd w i W Hi), <- saturate_clamp by lia. unfold vshr_n. rewrite get_map1 by lia.
    rewrite (sign_shift w _ W Fx).
    replace (wrapS w (if get w i x <? 0 then -1 else 0)) with (if get w i x <? 0 then -1 else 0)
      by (destruct (get w i x <? 0); symmetry; [apply wrapS_m1|apply wrapS_0]; exact W).
    rewrite Z.shiftr_div_pow2 by lia. rewrite fixup_div by (assumption || lia).
    symmetry. apply wrapS_small; [lia|]. apply away_fits; [exact W|exact Fx|lia].
Qed.
Lemma sse_rdpot w i x e : w1632 w -> 0 <= i < lanes w ->
  option_map (get w i) (sse_RoundingDivideByPOT w x e) = RoundingDivideByPOT Wrap w (get w i x) e.
Proof.
  intros W Hi. pose proof (w1 w W) as H1. unfold sse_RoundingDivideByPOT, RoundingDivideByPOT, guard.
  destruct (0 <=? e) eqn:E1; [|reflexivity]. destruct (e <=? 31) eqn:E2; [|reflexivity]. cbn [bind].
  unfold ShiftRight at 1. change ((0 <=? 1) && (1 <? 32)) with true. cbn [bind].
  unfold Add at 1. unfold norm. cbn [bind]. unfold ShiftRight. replace ((0 <=? e) && (e <? 32)) with true by lia. cbn [bind option_map].
  unfold Add, norm. f_equal. unfold sse_Add, mm_add. rewrite !(g_add w i W Hi), !(g_sse_shr w i W Hi), !(g_sse_and w i W), (g_sse_gt w i W Hi),
    !(g_sse_and w i W), !(g_dup w i W Hi) by lia.
  rewrite (g_add w i W Hi), (g_sse_shr w i W Hi), (g_sse_and w i W), (g_sse_lt w i W Hi), !(g_dup w i W Hi) by lia.
  now rewrite (wrapS_0 w W), (wrapS_1 w i W Hi).
Qed.
Lemma sse_srm w i e x : w1632 w -> 0 <= i < lanes w -> - (w - 1) <= e <= w - 1 -> e <= 30 ->
  exists r, sse_SaturatingRoundingMultiplyByPOT w e x = Some r /\
    SaturatingRoundingMultiplyByPOT Trap w e (get w i x) = Some (get w i r).
Proof.
  intros W Hi He H30. pose proof (w1 w W) as H1. assert (Fx : fits w (get w i x)) by (apply get_fits; lia).
  unfold sse_SaturatingRoundingMultiplyByPOT. destruct (e =? 0) eqn:E0.
  { assert (e = 0) by lia. subst e. exists x. split; reflexivity. }
  destruct (e >? 0) eqn:E1.
  - rewrite srmpot_pos_eq by (assumption || lia).
    unfold one_shl_int. replace ((0 <=? w - 1 - e) && (w - 1 - e <=? 31)) with true by (destruct W; lia).
    assert (HP : 0 < 2 ^ (w - 1 - e)) by (apply Z.pow_pos_nonneg; lia).
    assert (HE : 2 ^ (w - 1) = 2 ^ (w - 1 - e) * 2 ^ e) by (rewrite <- Z.pow_add_r by lia; f_equal; lia).
    assert (He2 : 2 <= 2 ^ e) by (change 2 with (2 ^ 1) at 1; apply Z.pow_le_mono_r; lia).
    assert (HW : 2 ^ (w - 1) <= 2147483648) by (destruct W; subst w; cbn; lia).
    rewrite norm_fits by (try lia; unfold int_min, int_max; change (2 ^ (32 - 1)) with 2147483648; nia).
    cbn [bind]. eexists. split; [reflexivity|]. f_equal.
    rewrite !(g_sse_sel w i W), (g_sse_gt w i W Hi), (g_sse_lt w i W Hi), !(g_dup w i W Hi), (g_sse_shl w i W Hi) by lia.
    set (T := 2 ^ (w - 1 - e)) in *. set (y := get w i x) in *.
    rewrite !(wrapS_small w (_ - 1)), !(wrapS_small w (- _)), !(wrapS_small w (int_max w)), !(wrapS_small w (int_min w))
      by (try lia; unfold int_min, int_max; nia).
    unfold MaskIfGreaterThan, MaskIfLessThan. rewrite !mask_b2z, !sel_mask.
    unfold clamp_int, clampZ. unfold fits in Fx. destruct (y <? - (T - 1)) eqn:B1.
    + destruct (y * 2 ^ e <? - 2 ^ (w - 1)) eqn:B2; [reflexivity|].
      destruct (2 ^ (w - 1) - 1 <? y * 2 ^ e) eqn:B3; [nia|]. unfold int_min. nia.
    + destruct (y >? T - 1) eqn:B2.
      * replace (y * 2 ^ e <? - 2 ^ (w - 1)) with false by nia. replace (2 ^ (w - 1) - 1 <? y * 2 ^ e) with true by nia. reflexivity.
      * replace (y * 2 ^ e <? - 2 ^ (w - 1)) with false by nia. replace (2 ^ (w - 1) - 1 <? y * 2 ^ e) with false by nia.
        symmetry. apply wrapS_small; [lia|]. unfold int_min, int_max. nia.
  - pose proof (sse_rdpot w i x (- e) W Hi) as R.
    rewrite rdpot_eq in R by (assumption || lia). rewrite srmpot_neg_eq by (assumption || lia).
    destruct (sse_RoundingDivideByPOT w x (- e)) as [r |]; [|discriminate]. exists r. split; [reflexivity|].
    cbn [option_map] in R. now symmetry.
Qed.

(* ------------------------------------------------------------------ *)
(* Any and All *)
Lemma sse_any w a : w1632 w -> 0 <= a < 2 ^ 128 ->
  (sse_Any a = true <-> exists i, 0 <= i < lanes w /\ get w i a <> 0).
Proof.
  intros W Ha. pose proof (w1 w W) as H1. unfold sse_Any, mm_testz. rewrite Z.land_diag.
  assert (HL : lanes w * w = 128) by (unfold lanes; destruct W; subst w; reflexivity). split.
  - intros H. assert (N : a <> 0) by lia.
    set (j := Z.log2 a). assert (Hj : 0 <= j < 128).
    { split; [apply Z.log2_nonneg|]. apply Z.log2_lt_pow2; lia. }
    assert (B : Z.testbit a j = true) by (apply Z.bit_log2; lia).
    pose proof (Z.div_mod j w ltac:(lia)) as DM. pose proof (Z.mod_pos_bound j w ltac:(lia)) as MB.
    assert (0 <= j / w) by (apply Z.div_pos; lia).
    exists (j / w). split; [nia|]. intros Z0.
    pose proof (get_bits w (j / w) a (j mod w) ltac:(lia) ltac:(lia) MB) as G. rewrite Z0, Z.testbit_0_l, <- DM in G. congruence.
  - intros (i & Hi & N). destruct (a =? 0) eqn:E; [|reflexivity]. exfalso. apply N. assert (a = 0) as -> by lia.
    unfold get. rewrite Z.shiftr_0_l. apply wrapS_0. exact W.
Qed.
Lemma vext_lane w i a n : w1632 w -> 0 <= i < lanes w -> 0 <= n <= lanes w ->
  get w i (vext w a a n) = get w ((i + n) mod lanes w) a.
Proof.
  intros W Hi Hn. pose proof (w1 w W) as H1. unfold vext. rewrite get_pack by lia.
  destruct (i + n <? lanes w) eqn:E.
  - rewrite wrapS_get by lia. rewrite Z.mod_small by lia. reflexivity.
  - rewrite wrapS_get by lia. f_equal. rewrite <- (Z.mod_add (i + n) (-1)) by lia. rewrite Z.mod_small; lia.
Qed.
Lemma lor_zero a b : Z.lor a b = 0 <-> a = 0 /\ b = 0. Proof. apply Z.lor_eq_0_iff. Qed.
Lemma neon_any w a : w1632 w -> (neon_Any w a = true <-> exists i, 0 <= i < lanes w /\ get w i a <> 0).
Proof.
  intros W. pose proof (w1 w W) as H1.
  assert (S : forall b n i, 0 <= i < lanes w -> 0 <= n <= lanes w -> get w i (vorr b (vext w b b n)) = Z.lor (get w i b) (get w ((i + n) mod lanes w) b)).
  { intros. unfold vorr. rewrite get_or by lia. now rewrite vext_lane. }
  destruct W as [-> | ->]; unfold neon_Any.
  - change (16 =? 16) with true. cbn iota. change (lanes 16) with 8 in *.
    rewrite !S by (try (apply Z.mod_pos_bound); lia).
    cbn -[get Z.lor Z.eqb]. 
    split.
    + intros H. assert (N : ~ (get 16 0 a = 0 /\ get 16 1 a = 0 /\ get 16 2 a = 0 /\ get 16 3 a = 0 /\ get 16 4 a = 0 /\ get 16 5 a = 0 /\ get 16 6 a = 0 /\ get 16 7 a = 0)).
      { intros (A0 & A1 & A2 & A3 & A4 & A5 & A6 & A7). rewrite A0, A1, A2, A3, A4, A5, A6, A7 in H. discriminate. }
      destruct (Z.eq_dec (get 16 0 a) 0); [|exists 0; lia]. destruct (Z.eq_dec (get 16 1 a) 0); [|exists 1; lia].
      destruct (Z.eq_dec (get 16 2 a) 0); [|exists 2; lia]. destruct (Z.eq_dec (get 16 3 a) 0); [|exists 3; lia].
      destruct (Z.eq_dec (get 16 4 a) 0); [|exists 4; lia]. destruct (Z.eq_dec (get 16 5 a) 0); [|exists 5; lia].
      destruct (Z.eq_dec (get 16 6 a) 0); [|exists 6; lia]. destruct (Z.eq_dec (get 16 7 a) 0); [|exists 7; lia]. tauto.
    + intros (i & Hi & N). apply Bool.negb_true_iff. apply Z.eqb_neq. rewrite !lor_zero.
      assert (C : i = 0 \/ i = 1 \/ i = 2 \/ i = 3 \/ i = 4 \/ i = 5 \/ i = 6 \/ i = 7) by lia.
      destruct C as [-> | [-> | [-> | [-> | [-> | [-> | [-> | ->]]]]]]]; tauto.
  - change (32 =? 16) with false. cbn iota. change (lanes 32) with 4 in *.
    rewrite !S by (try (apply Z.mod_pos_bound); lia).
    cbn -[get Z.lor Z.eqb].
    split.
    + intros H. assert (N : ~ (get 32 0 a = 0 /\ get 32 1 a = 0 /\ get 32 2 a = 0 /\ get 32 3 a = 0)).
      { intros (A0 & A1 & A2 & A3). rewrite A0, A1, A2, A3 in H. discriminate. }
      destruct (Z.eq_dec (get 32 0 a) 0); [|exists 0; lia]. destruct (Z.eq_dec (get 32 1 a) 0); [|exists 1; lia].
      destruct (Z.eq_dec (get 32 2 a) 0); [|exists 2; lia]. destruct (Z.eq_dec (get 32 3 a) 0); [|exists 3; lia]. tauto.
    + intros (i & Hi & N). apply Bool.negb_true_iff. apply Z.eqb_neq. rewrite !lor_zero.
      destruct (four i Hi) as [-> | [-> | [-> | ->]]]; tauto.
Qed.
(* a register every lane of which is all ones or all zeroes *)
Definition is_mask (w : Z) (a : reg) : Prop := forall i, 0 <= i < lanes w -> get w i a = 0 \/ get w i a = -1.
Lemma neon_all w a : w1632 w -> is_mask w a -> (neon_All w a = true <-> forall i, 0 <= i < lanes w -> get w i a = -1).
Proof.
  intros W M. pose proof (w1 w W) as H1.
  assert (S : forall b n i, 0 <= i < lanes w -> 0 <= n <= lanes w -> get w i (vand b (vext w b b n)) = Z.land (get w i b) (get w ((i + n) mod lanes w) b)).
  { intros. unfold vand. rewrite get_and by lia. now rewrite vext_lane. }
  unfold is_mask in M. destruct W as [-> | ->]; unfold neon_All.
  - change (16 =? 16) with true. cbn iota. change (lanes 16) with 8 in *.
    rewrite !S by (try (apply Z.mod_pos_bound); lia).
    cbn -[get Z.land Z.eqb].
    split.
    + intros H7 i Hi. assert (C : i = 0 \/ i = 1 \/ i = 2 \/ i = 3 \/ i = 4 \/ i = 5 \/ i = 6 \/ i = 7) by lia.
      destruct (M i Hi) as [Z0 | E]; [|exact E]. exfalso.
      destruct C as [-> | [-> | [-> | [-> | [-> | [-> | [-> | ->]]]]]]]; rewrite Z0 in H7; rewrite ?Z.land_0_l, ?Z.land_0_r in H7; discriminate.
    + intros A. rewrite !A by lia. reflexivity.
  - change (32 =? 16) with false. cbn iota. change (lanes 32) with 4 in *.
    rewrite !S by (try (apply Z.mod_pos_bound); lia).
    cbn -[get Z.land Z.eqb].
    split.
    + intros H7 i Hi. destruct (M i Hi) as [Z0 | E]; [|exact E]. exfalso.
      destruct (four i Hi) as [-> | [-> | [-> | ->]]]; rewrite Z0 in H7; rewrite ?Z.land_0_l, ?Z.land_0_r in H7; discriminate.
    + intros A. rewrite !A by lia. reflexivity.
Qed.
Lemma sse_all_true a : sse_All a = true.
Proof. unfold sse_All, mm_testc. rewrite Z.ldiff_diag. reflexivity. Qed.
