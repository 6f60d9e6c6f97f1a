(* SimdProofs6.v: every lane of the AVX operations, half by half *)
From Verif Require Import Base BaseLemmas FixedPointModel FixedPointSpec FixedPointProofs
  SimdModel SimdProofs SimdProofs2 SimdProofs3 SimdProofs4 SimdModel2 SimdProofs5.

Definition w_div (w : Z) : Prop := w = 16 \/ w = 32 \/ w = 64.
Lemma w_lanes w : w_div w -> w * lanes w = 128 /\ 1 <= w.
Proof. intros [-> | [-> | ->]]; cbn; lia. Qed.
Lemma u128 x : 0 <= x < 2 ^ 128 -> wrapU 128 x = x.
Proof. intros H. unfold wrapU. now apply Z.mod_small. Qed.
Lemma half_range k v : 0 <= half k v < 2 ^ 128.
Proof. unfold half, wrapU. apply Z.mod_pos_bound. lia. Qed.
Lemma half_bit k v j : 0 <= k -> 0 <= j < 128 -> Z.testbit (half k v) j = Z.testbit v (128 * k + j).
Proof. intros Hk Hj. unfold half, wrapU. rewrite Z.mod_pow2_bits_low by lia. rewrite Z.shiftr_spec by lia. f_equal. lia. Qed.
Lemma half_high k v j : 128 <= j -> Z.testbit (half k v) j = false.
Proof. intros Hj. unfold half, wrapU. now rewrite Z.mod_pow2_bits_high by lia. Qed.
Lemma get_half w k j v : w_div w -> 0 <= k -> 0 <= j < lanes w -> get w (k * lanes w + j) v = get w j (half k v).
Proof.
  intros D Hk Hj. destruct (w_lanes w D) as (E & H1). rewrite <- (wrapS_get w j (half k v)) by lia.
  apply get_ext; [lia|nia|]. intros p Hp. rewrite get_bits by lia. assert (0 <= w * j + p < 128) by nia. rewrite half_bit by lia. f_equal. nia.
Qed.
Lemma half_both k lo hi : k = 0 \/ k = 1 -> half k (both lo hi) = wrapU 128 (if k =? 0 then lo else hi).
Proof.
  pose proof (Z.mod_pos_bound lo (2 ^ 128) ltac:(lia)) as A. pose proof (Z.mod_pos_bound hi (2 ^ 128) ltac:(lia)) as B.
  unfold half, both, wrapU. intros [-> | ->].
  - change (128 * 0) with 0. change (0 =? 0) with true. cbn iota. rewrite Z.shiftr_0_r, Z.mod_add by lia. now rewrite Z.mod_mod by lia.
  - change (128 * 1) with 128. change (1 =? 0) with false. cbn iota. rewrite Z.shiftr_div_pow2 by lia. rewrite Z.div_add by lia.
    rewrite Z.div_small by exact A. rewrite Z.add_0_l. now rewrite Z.mod_mod by lia.
Qed.
Lemma half_bits (op : Z -> Z -> Z) (f : bool -> bool -> bool) k a b : 0 <= k -> f false false = false ->
  (forall x y j, Z.testbit (op x y) j = f (Z.testbit x j) (Z.testbit y j)) -> half k (op a b) = op (half k a) (half k b).
Proof.
  intros Hk F H. apply eq_bits. intros j Hj. rewrite H. destruct (Z_lt_le_dec j 128).
  - now rewrite !half_bit, H by lia.
  - now rewrite !half_high by lia.
Qed.
Lemma half_and k a b : 0 <= k -> half k (Z.land a b) = Z.land (half k a) (half k b).
Proof. intros H. apply (half_bits Z.land andb); auto. intros. apply Z.land_spec. Qed.
Lemma half_or k a b : 0 <= k -> half k (Z.lor a b) = Z.lor (half k a) (half k b).
Proof. intros H. apply (half_bits Z.lor orb); auto. intros. apply Z.lor_spec. Qed.
Lemma half_xor k a b : 0 <= k -> half k (Z.lxor a b) = Z.lxor (half k a) (half k b).
Proof. intros H. apply (half_bits Z.lxor xorb); auto. intros. apply Z.lxor_spec. Qed.
Lemma half_diff k a b : 0 <= k -> half k (Z.ldiff a b) = Z.ldiff (half k a) (half k b).
Proof. intros H. apply (half_bits Z.ldiff (fun x y => x && negb y)); auto. intros. apply Z.ldiff_spec. Qed.
Lemma pack_u w f : w_div w -> wrapU 128 (pack w f) = pack w f.
Proof. intros D. apply u128. now apply pack_range. Qed.
Lemma half_set1 k w x : k = 0 \/ k = 1 -> w_div w -> half k (mm256_set1 w x) = mm_set1 w x.
Proof. intros K D. unfold mm256_set1. rewrite half_both by exact K. unfold mm_set1. destruct (k =? 0); now apply pack_u. Qed.
Lemma half_h1 k f a : k = 0 \/ k = 1 -> half k (halves1 f a) = wrapU 128 (f (half k a)).
Proof. intros K. unfold halves1. rewrite half_both by exact K. destruct K as [-> | ->]; reflexivity. Qed.
Lemma half_h2 k f a b : k = 0 \/ k = 1 -> half k (halves2 f a b) = wrapU 128 (f (half k a) (half k b)).
Proof. intros K. unfold halves2. rewrite half_both by exact K. destruct K as [-> | ->]; reflexivity. Qed.
Lemma half_map1 k w f a : k = 0 \/ k = 1 -> w_div w -> half k (halves1 (map1 w f) a) = map1 w f (half k a).
Proof. intros K D. rewrite half_h1 by exact K. unfold map1. now apply pack_u. Qed.
Lemma half_map2 k w f a b : k = 0 \/ k = 1 -> w_div w -> half k (halves2 (map2 w f) a b) = map2 w f (half k a) (half k b).
Proof. intros K D. rewrite half_h2 by exact K. unfold map2. now apply pack_u. Qed.

(* the operations on one half *)
Section Half.
Variables k w : Z.
Hypothesis K : k = 0 \/ k = 1.
Hypothesis D : w_div w.
Local Notation h := (half k).
Lemma h_k : 0 <= k. Proof. destruct K; lia. Qed.
Lemma h_not a : h (avx_BitNot w a) = sse_BitNot w (h a).
Proof. unfold avx_BitNot, sse_BitNot, mm_andnot. rewrite half_diff by exact h_k. now rewrite half_set1. Qed.
Lemma h_add a b : h (avx_Add w a b) = sse_Add w (h a) (h b). Proof. now apply half_map2. Qed.
Lemma h_mul a b : h (avx_Mul w a b) = sse_Mul w (h a) (h b). Proof. now apply half_map2. Qed.
Lemma h_sub a b : h (avx_Sub w a b) = sse_Sub w (h a) (h b). Proof. now apply half_map2. Qed.
Lemma h_neg a : h (avx_Neg w a) = sse_Neg w (h a).
Proof. unfold avx_Neg, sse_Neg, mm_sign. rewrite half_map2 by assumption. now rewrite half_set1. Qed.
Lemma h_shl a n : h (avx_ShiftLeft w a n) = sse_ShiftLeft w (h a) n.
Proof. unfold avx_ShiftLeft. rewrite half_h1 by exact K. unfold mm_slli at 1, map1. now apply pack_u. Qed.
Lemma h_shr a n : h (avx_ShiftRight w a n) = sse_ShiftRight w (h a) n.
Proof. unfold avx_ShiftRight. rewrite half_h1 by exact K. unfold mm_srai at 1, map1. now apply pack_u. Qed.
Lemma h_eq a b : h (avx_MaskIfEqual w a b) = mm_cmpeq w (h a) (h b). Proof. now apply half_map2. Qed.
Lemma h_ne a b : h (avx_MaskIfNotEqual w a b) = sse_BitNot w (mm_cmpeq w (h a) (h b)).
Proof. unfold avx_MaskIfNotEqual. now rewrite h_not, h_eq. Qed.
Lemma h_gt a b : h (avx_MaskIfGreaterThan w a b) = mm_cmpgt w (h a) (h b). Proof. now apply half_map2. Qed.
Lemma h_lt a b : h (avx_MaskIfLessThan w a b) = mm_cmpgt w (h b) (h a). Proof. now apply half_map2. Qed.
Lemma h_set x : h (mm256_set1 w x) = mm_set1 w x. Proof. now apply half_set1. Qed.
End Half.
Lemma d16 : w_div 16. Proof. now left. Qed.
Lemma d32 : w_div 32. Proof. now right; left. Qed.
Lemma d64 : w_div 64. Proof. now right; right. Qed.
Lemma half32_h k a b : k = 0 \/ k = 1 -> half k (avx_RoundingHalfSum32 a b) = sse_RoundingHalfSum32 (half k a) (half k b).
Proof.
  intros K. unfold avx_RoundingHalfSum32, sse_RoundingHalfSum32. cbv zeta. unfold avx_BitXor, avx_BitAnd, sse_BitXor, sse_BitAnd, mm_xor, mm_and.
  rewrite half_xor, !half_and, !half_xor by (apply h_k; exact K).
  rewrite !(h_shr k 32 K d32), !(h_add k 32 K d32), !(h_set k 32 K d32). unfold sse_ShiftRight. reflexivity.
Qed.
Lemma half16_h k a b : k = 0 \/ k = 1 -> half k (avx_RoundingHalfSum16 a b) = sse_RoundingHalfSum16 (half k a) (half k b).
Proof.
  intros K. unfold avx_RoundingHalfSum16, sse_RoundingHalfSum16. cbv zeta.
  rewrite (h_add k 16 K d16), (h_set k 16 K d16), half_h2 by exact K. unfold mm_avg_epu16 at 1. rewrite (pack_u 16) by exact d16.
  rewrite !(h_sub k 16 K d16), (h_set k 16 K d16). unfold sse_Add, sse_Sub, mm_avg_epu16. reflexivity.
Qed.
Lemma mul16_h k a b : k = 0 \/ k = 1 -> half k (avx_SaturatingRoundingDoublingHighMul16 a b) = sse_SaturatingRoundingDoublingHighMul16 (half k a) (half k b).
Proof.
  intros K. unfold avx_SaturatingRoundingDoublingHighMul16, sse_SaturatingRoundingDoublingHighMul16. cbv zeta.
  rewrite half_xor by (apply h_k; exact K). unfold mm_mulhrs_epi16, mm_cmpeq, mm_xor.
  rewrite !(half_map2 k 16) by (exact K || exact d16). now rewrite (h_set k 16 K d16).
Qed.
Lemma srli_u x : 0 <= x < 2 ^ 128 -> wrapU 128 (mm_srli_si128 x 4) = mm_srli_si128 x 4.
Proof.
  intros H. apply u128. unfold mm_srli_si128. rewrite Z.shiftr_div_pow2 by lia. change (2 ^ (8 * 4)) with 4294967296.
  split; [apply Z.div_pos; lia|]. apply Z.div_lt_upper_bound; lia.
Qed.
Lemma half_srli k a : k = 0 \/ k = 1 -> half k (halves1 (fun x => mm_srli_si128 x 4) a) = mm_srli_si128 (half k a) 4.
Proof. intros K. rewrite half_h1 by exact K. apply srli_u, half_range. Qed.
Lemma half_mul_epi32 k a b : k = 0 \/ k = 1 -> half k (halves2 mm_mul_epi32 a b) = mm_mul_epi32 (half k a) (half k b).
Proof. intros K. rewrite half_h2 by exact K. unfold mm_mul_epi32. apply pack_u, d64. Qed.
Lemma half_slli64 k a : k = 0 \/ k = 1 -> half k (halves1 (fun x => mm_slli 64 x 1) a) = mm_slli 64 (half k a) 1.
Proof. intros K. rewrite half_h1 by exact K. unfold mm_slli, map1. apply pack_u, d64. Qed.
Lemma half_blend k a b : k = 0 \/ k = 1 -> half k (halves2 (fun x y => mm_blend_epi16 x y 204) a b) = mm_blend_epi16 (half k a) (half k b) 204.
Proof. intros K. rewrite half_h2 by exact K. unfold mm_blend_epi16. apply pack_u, d16. Qed.
Lemma half_add64 k a b : k = 0 \/ k = 1 -> half k (halves2 (mm_add 64) a b) = mm_add 64 (half k a) (half k b).
Proof. intros K. apply half_map2; [exact K|exact d64]. Qed.
(* the select of 32-bit lanes on one half *)
Lemma blendv_lane k j a b m : k = 0 \/ k = 1 -> 0 <= j < 4 ->
  get 32 j (half k (mm256_blendv_ps a b m)) = if get 32 j (half k m) <? 0 then get 32 j (half k b) else get 32 j (half k a).
Proof.
  intros K Hj. assert (Hl : 0 <= j < lanes 32) by exact Hj. unfold mm256_blendv_ps. rewrite half_both by exact K.
  assert (R : forall q v, int_min 32 <= get 32 q v <= int_max 32) by (intros; apply get_range; lia).
  rewrite <- !(get_half 32 k j) by (exact d32 || assumption || destruct K; lia). change (lanes 32) with 4 in *.
  destruct K as [-> | ->].
  - change (0 =? 0) with true. cbn iota. rewrite (pack_u 32) by exact d32. rewrite get_pack by (lia || exact Hj). replace (0 * 4 + j) with j by lia.
    destruct (get 32 j m <? 0); apply wrapS_small; lia || apply R.
  - change (1 =? 0) with false. cbn iota. rewrite (pack_u 32) by exact d32. rewrite get_pack by (lia || exact Hj). replace (1 * 4 + j) with (4 + j) by lia.
    destruct (get 32 (4 + j) m <? 0); apply wrapS_small; lia || apply R.
Qed.
Lemma blend_sel m t e : m = 0 \/ m = -1 -> (if m <? 0 then t else e) = SelectUsingMask m t e.
Proof. intros [-> | ->]; [change (0 <? 0) with false; now rewrite sel_false|change (-1 <? 0) with true; now rewrite sel_true]. Qed.
Lemma mul32_raw_h k j a b : k = 0 \/ k = 1 -> 0 <= j < 4 ->
  get 32 j (half k (avx_SaturatingRoundingDoublingHighMul32 a b)) = get 32 j (sse_SaturatingRoundingDoublingHighMul32 (half k a) (half k b)).
Proof.
  intros K Hj. assert (W : w1632 32) by now right. assert (Hl : 0 <= j < lanes 32) by exact Hj.
  unfold avx_SaturatingRoundingDoublingHighMul32, sse_SaturatingRoundingDoublingHighMul32. cbv zeta. rewrite (g_sse_sel 32 j W).
  unfold avx_SelectUsingMask. change (32 =? 16) with false. cbn iota. rewrite blendv_lane by assumption.
  unfold avx_BitAnd. rewrite half_and by (apply h_k; exact K). rewrite !(h_eq k 32 K d32), (h_set k 32 K d32).
  rewrite half_blend, half_srli, !half_slli64, !half_add64, !half_mul_epi32, !half_srli, !(h_set k 64 K d64) by exact K.
  unfold sse_BitAnd, mm_and, sse_MaskIfEqual. apply blend_sel. rewrite get_and by lia. unfold mm_cmpeq. rewrite !get_map2, !wrapS_ones by lia.
  destruct (get 32 j (half k a) =? get 32 j (half k b)), (get 32 j (half k a) =? get 32 j (mm_set1 32 (-2147483648))); cbn; auto.
Qed.

(* lane i of a 256-bit register is lane i mod (lanes w) of one half *)
Lemma lane_split w i : w1632 w -> 0 <= i < 2 * lanes w ->
  exists k j, (k = 0 \/ k = 1) /\ 0 <= j < lanes w /\ i = k * lanes w + j.
Proof.
  intros W Hi. destruct (Z_lt_le_dec i (lanes w)); [exists 0, i|exists 1, (i - lanes w)]; lia.
Qed.
Lemma wdiv w : w1632 w -> w_div w. Proof. unfold w_div. intros [-> | ->]; auto. Qed.
Section Avx.
Variables w k j : Z.
Hypothesis W : w1632 w.
Hypothesis K : k = 0 \/ k = 1.
Hypothesis Hj : 0 <= j < lanes w.
Local Notation g := (get w (k * lanes w + j)).
Hypothesis D : w_div w.
Lemma gh v : g v = get w j (half k v). Proof. apply get_half; [exact D|apply h_k; exact K|exact Hj]. Qed.
Lemma i_pos : 0 <= k * lanes w + j. Proof. destruct K; lia. Qed.
Lemma a_dup x : g (avx_Dup w x) = wrapS w x. Proof. rewrite gh. unfold avx_Dup. rewrite (h_set k w K D). exact (g_dup w j W Hj x). Qed.
Lemma a_not a : g (avx_BitNot w a) = BitNot (g a). Proof. rewrite !gh, (h_not k w K D). exact (g_sse_not w j W Hj _). Qed.
Lemma a_add a b : g (avx_Add w a b) = wrapS w (g a + g b). Proof. rewrite !gh, (h_add k w K D). exact (g_add w j W Hj _ _). Qed.
Lemma a_mul a b : g (avx_Mul w a b) = wrapS w (g a * g b). Proof. rewrite !gh, (h_mul k w K D). exact (g_mul w j W Hj _ _). Qed.
Lemma a_sub a b : g (avx_Sub w a b) = wrapS w (g a - g b). Proof. rewrite !gh, (h_sub k w K D). exact (g_sub w j W Hj _ _). Qed.
Lemma a_neg a : g (avx_Neg w a) = wrapS w (- g a). Proof. rewrite !gh, (h_neg k w K D). exact (g_sse_neg w j W Hj _). Qed.
Lemma a_shl a n : 0 <= n -> g (avx_ShiftLeft w a n) = wrapS w (g a * 2 ^ n). Proof. rewrite !gh, (h_shl k w K D). exact (g_sse_shl w j W Hj _ n). Qed.
Lemma a_shr a n : 0 <= n -> g (avx_ShiftRight w a n) = Z.shiftr (g a) n. Proof. rewrite !gh, (h_shr k w K D). exact (g_sse_shr w j W Hj _ n). Qed.
Lemma a_eq a b : g (avx_MaskIfEqual w a b) = MaskIfEqual (g a) (g b). Proof. rewrite !gh, (h_eq k w K D). exact (g_eq w j W Hj _ _). Qed.
Lemma a_ne a b : g (avx_MaskIfNotEqual w a b) = MaskIfNotEqual (g a) (g b). Proof. rewrite !gh, (h_ne k w K D). exact (g_sse_ne w j W Hj _ _). Qed.
Lemma a_zero x : MaskIfEqual x 0 = MaskIfZero x. Proof. unfold MaskIfEqual, MaskIfZero. now rewrite !mask_ones. Qed.
Lemma a_nonzero x : MaskIfNotEqual x 0 = MaskIfNonZero x. Proof. unfold MaskIfNotEqual. now rewrite mask_ones, mask_nz_ones. Qed.
Lemma a_z a : g (avx_MaskIfZero w a) = MaskIfZero (g a).
Proof. unfold avx_MaskIfZero. rewrite a_eq. fold (avx_Dup w 0). rewrite a_dup, (wrapS_0 w W). apply a_zero. Qed.
Lemma a_nz a : g (avx_MaskIfNonZero w a) = MaskIfNonZero (g a).
Proof. unfold avx_MaskIfNonZero. rewrite a_ne. fold (avx_Dup w 0). rewrite a_dup, (wrapS_0 w W). apply a_nonzero. Qed.
Lemma a_gt a b : g (avx_MaskIfGreaterThan w a b) = MaskIfGreaterThan (g a) (g b). Proof. rewrite !gh, (h_gt k w K D). exact (g_gt w j W Hj _ _). Qed.
Lemma a_lt a b : g (avx_MaskIfLessThan w a b) = MaskIfLessThan (g a) (g b).
Proof. rewrite !gh, (h_lt k w K D). unfold mm_cmpgt. rewrite (g_gt w j W Hj _ _). unfold MaskIfLessThan, MaskIfGreaterThan. do 2 f_equal. lia. Qed.
Lemma a_ge a b : g (avx_MaskIfGreaterThanOrEqual w a b) = MaskIfGreaterThanOrEqual (g a) (g b).
Proof.
  unfold avx_MaskIfGreaterThanOrEqual. rewrite a_not, a_lt. unfold MaskIfLessThan, MaskIfGreaterThanOrEqual. rewrite !mask_ones, not_ones.
  f_equal. lia.
Qed.
Lemma a_le a b : g (avx_MaskIfLessThanOrEqual w a b) = MaskIfLessThanOrEqual (g a) (g b).
Proof.
  unfold avx_MaskIfLessThanOrEqual. rewrite a_not, a_gt. unfold MaskIfGreaterThan, MaskIfLessThanOrEqual. rewrite !mask_ones, not_ones.
  f_equal. lia.
Qed.
Lemma a_sel m t e : g m = 0 \/ g m = -1 -> g (avx_SelectUsingMask w m t e) = SelectUsingMask (g m) (g t) (g e).
Proof.
  intros M. unfold avx_SelectUsingMask. pose proof W as [E | E].
  - replace (w =? 16) with true by lia. exact (g_sse_sel w _ W m t e).
  - replace (w =? 16) with false by lia. rewrite !gh in *. rewrite E in M, Hj |- *. rewrite blendv_lane by (exact K || exact Hj). now apply blend_sel.
Qed.
Lemma a_half a b : g ((if w =? 16 then avx_RoundingHalfSum16 else avx_RoundingHalfSum32) a b) = (g a + g b + 1) / 2.
Proof.
  rewrite !gh. destruct W as [E | E]; rewrite E in Hj |- *.
  - change (16 =? 16) with true. cbn iota. rewrite half16_h by exact K. exact (g_sse_half16 j _ _ Hj).
  - change (32 =? 16) with false. cbn iota. rewrite half32_h by exact K. exact (g_sse_half32 j _ _ Hj).
Qed.
Lemma a_hmul a b : ~ (w = 32 /\ g a = int_min w /\ g b = int_min w) ->
  g ((if w =? 16 then avx_SaturatingRoundingDoublingHighMul16 else avx_SaturatingRoundingDoublingHighMul32) a b) = SaturatingRoundingDoublingHighMul w (g a) (g b).
Proof.
  rewrite !gh. destruct W as [E | E]; rewrite E in Hj |- *; intros N.
  - change (16 =? 16) with true. cbn iota. rewrite mul16_h by exact K. exact (sse_mul16 j _ _ Hj).
  - change (32 =? 16) with false. cbn iota. rewrite mul32_raw_h by (exact K || exact Hj). apply sse_mul32; [exact Hj|]. intros M. apply N. tauto.
Qed.
Lemma a_sat a b : w = 16 -> g (avx_SaturatingAdd16 a b) = clamp_int 16 (g a + g b).
Proof.
  intros E. rewrite !gh. rewrite E in Hj |- *. unfold avx_SaturatingAdd16, mm_adds. rewrite (half_map2 k 16) by (exact K || exact d16).
  exact (g_qadd 16 j (or_introl eq_refl) Hj _ _).
Qed.
Lemma avx_ok_half : ops_ok (simd Avx w) w (k * lanes w + j).
Proof.
  pose proof (w1 w W) as H1.
  constructor; cbn [simd s_dup s_and s_or s_xor s_not s_add s_sub s_neg s_shl s_shr s_select s_eq s_ne s_zero s_nonzero s_gt s_ge s_lt s_le s_halfsum s_mul s_addsat16 s_divide s_pot].
  - exact a_dup.
  - exact (g_sse_and w _ W).
  - exact (g_sse_or w _ W).
  - exact (g_sse_xor w _ W).
  - exact a_not.
  - exact a_add.
  - exact a_sub.
  - exact a_neg.
  - intros a n Hn. apply a_shl. lia.
  - intros a n Hn. apply a_shr. lia.
  - exact a_sel.
  - exact a_eq.
  - exact a_ne.
  - exact a_z.
  - exact a_nz.
  - exact a_gt.
  - exact a_ge.
  - exact a_lt.
  - exact a_le.
  - exact a_half.
  - intros a b N. apply a_hmul. tauto.
  - exact a_sat.
  - intros x e He. apply q_rdpot; try assumption; cbn [avx_pot q_dup q_and q_add q_shl q_shr q_lt q_gt q_select].
    + exact a_dup.
    + exact (g_sse_and w _ W).
    + exact a_add.
    + intros a n Hn. apply a_shl. lia.
    + intros a n Hn. apply a_shr. lia.
    + exact a_lt.
    + exact a_gt.
    + exact a_sel.
  - intros e x He H30. apply q_srm; try assumption; cbn [avx_pot q_dup q_and q_add q_shl q_shr q_lt q_gt q_select].
    + exact a_dup.
    + exact (g_sse_and w _ W).
    + exact a_add.
    + intros a n Hn. apply a_shl. lia.
    + intros a n Hn. apply a_shr. lia.
    + exact a_lt.
    + exact a_gt.
    + exact a_sel.
Qed.
End Avx.
Theorem avx_ok w i : w1632 w -> 0 <= i < 2 * lanes w -> ops_ok (simd Avx w) w i.
Proof. intros W Hi. destruct (lane_split w i W Hi) as (k & j & K & Hj & ->). apply avx_ok_half; auto using wdiv. Qed.

(* All and Any *)
Lemma all_lanes_spec w f a n : all_lanes w f a n = true <-> forall i, 0 <= i < Z.of_nat n -> f (get w i a) = true.
Proof.
  induction n as [| n IH]; cbn [all_lanes]; [split; [lia|reflexivity]|]. rewrite andb_true_iff, IH. split.
  - intros (A & B) i Hi. destruct (Z.eq_dec i (Z.of_nat n)) as [-> |]; [exact B|apply A; lia].
  - intros A. split; [intros i Hi; apply A; lia|apply A; lia].
Qed.
Lemma all_lanes_reg w f a : w1632 w -> all_lanes w f a (Z.to_nat (lanes w)) = true <-> forall i, 0 <= i < lanes w -> f (get w i a) = true.
Proof. intros W. rewrite all_lanes_spec. rewrite Z2Nat.id by (destruct W; subst w; cbn; lia). reflexivity. Qed.
Lemma wasm_any w a : w1632 w -> (wasm_Any w a = true <-> exists i, 0 <= i < lanes w /\ get w i a <> 0).
Proof.
  intros W. unfold wasm_Any, wasm_any_true. rewrite negb_true_iff. split.
  - intros H. assert (N : ~ forall i, 0 <= i < lanes w -> (get w i a =? 0) = true).
    { intros A. apply (all_lanes_reg w (fun x => x =? 0) a W) in A. congruence. }
    revert N. clear H. assert (E : forall n : nat, ~ (forall i, 0 <= i < Z.of_nat n -> (get w i a =? 0) = true) -> exists i, 0 <= i < Z.of_nat n /\ get w i a <> 0).
    { induction n as [| n IH]; intros N; [exfalso; apply N; lia|].
      destruct (Z.eq_dec (get w (Z.of_nat n) a) 0) as [Q | Q]; [|exists (Z.of_nat n); split; [lia|exact Q]].
      destruct IH as (i & Hi & P); [|exists i; split; [lia|exact P]].
      intros A. apply N. intros i Hi. destruct (Z.eq_dec i (Z.of_nat n)) as [-> |]; [lia|apply A; lia]. }
    intros N. rewrite <- (Z2Nat.id (lanes w)) by (destruct W; subst w; cbn; lia). apply E. now rewrite Z2Nat.id by (destruct W; subst w; cbn; lia).
  - intros (i & Hi & N). destruct (all_lanes w (fun x => x =? 0) a (Z.to_nat (lanes w))) eqn:A; [|reflexivity].
    pose proof (proj1 (all_lanes_reg w (fun x => x =? 0) a W) A i Hi). lia.
Qed.
Lemma wasm_all w a : w1632 w -> (wasm_All w a = true <-> forall i, 0 <= i < lanes w -> get w i a <> 0).
Proof.
  intros W. unfold wasm_All, wasm_all_true. rewrite (all_lanes_reg w (fun x => negb (x =? 0)) a W).
  split; intros A i Hi; specialize (A i Hi); [intros Q; rewrite Q in A; discriminate|lia].
Qed.
Lemma not_range a : 0 <= wasm_not a < 2 ^ 128.
Proof.
  replace (wasm_not a) with (half 0 (wasm_not a)); [apply half_range|]. apply eq_bits. intros j Hj. destruct (Z_lt_le_dec j 128).
  - rewrite half_bit by lia. reflexivity.
  - rewrite half_high by lia. unfold wasm_not. change (2 ^ 128 - 1) with (Z.ones 128). rewrite Z.ldiff_spec, Z.ones_spec_high by lia. reflexivity.
Qed.
Lemma msa_any w a : w1632 w -> 0 <= a < 2 ^ 128 -> (msa_Any a = true <-> exists i, 0 <= i < lanes w /\ get w i a <> 0).
Proof. intros W Ha. rewrite <- (sse_any w a W Ha). unfold msa_Any, msa_bnz, sse_Any, mm_testz. now rewrite Z.land_diag. Qed.
Lemma msa_all w a : w1632 w -> (msa_All a = true <-> forall i, 0 <= i < lanes w -> get w i a = -1).
Proof.
  intros W. unfold msa_All, msa_bz, msa_BitNot, msa_nor. rewrite Z.lor_diag. fold (wasm_not a). pose proof (sse_any w (wasm_not a) W (not_range a)) as H.
  unfold sse_Any, mm_testz in H. rewrite Z.land_diag in H.
  assert (G : forall i, 0 <= i < lanes w -> get w i (wasm_not a) = Z.lnot (get w i a)) by (intros i Hi; exact (g_wnot w i W Hi a)).
  split.
  - intros E i Hi. destruct (Z.eq_dec (get w i a) (-1)) as [Q | Q]; [exact Q|]. exfalso.
    assert (X : negb (wasm_not a =? 0) = true); [|rewrite E in X; discriminate].
    apply H. exists i. split; [exact Hi|]. rewrite G by exact Hi. unfold Z.lnot. lia.
  - intros A. destruct (wasm_not a =? 0) eqn:E; [reflexivity|]. destruct (proj1 H eq_refl) as (i & Hi & N).
    exfalso. apply N. rewrite G, A by exact Hi. reflexivity.
Qed.
