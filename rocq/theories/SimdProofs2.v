(* SimdProofs2.v: every lane of the SSE and NEON operations *)
From Verif Require Import Base BaseLemmas FixedPointModel FixedPointSpec FixedPointProofs SimdModel SimdProofs.

Section Lane.
Variables w i : Z.
Hypothesis Hw : w1632 w.
Hypothesis Hi : 0 <= i < lanes w.
Lemma w1 : 1 <= w. Proof. destruct Hw; lia. Qed.
Local Notation g := (get w i).
Ltac lane := rewrite ?get_map1, ?get_map2 by (exact w1 || exact Hi).

Lemma g_dup x : g (mm_set1 w x) = wrapS w x.
Proof. unfold mm_set1. rewrite get_pack; [reflexivity|exact w1|exact Hi]. Qed.
Lemma g_ndup x : g (vdupq_n w x) = wrapS w x.
Proof. exact (g_dup x). Qed.
Lemma wrapS_m1 : wrapS w (-1) = -1. Proof. exact (wrapS_ones w true w1). Qed.
Lemma wrapS_0 : wrapS w 0 = 0. Proof. exact (wrapS_ones w false w1). Qed.
Lemma wrapS_1 : wrapS w 1 = 1.
Proof. destruct Hw; subst w; reflexivity. Qed.

Lemma g_sse_and a b : g (sse_BitAnd a b) = BitAnd (g a) (g b). Proof. apply get_and, w1. Qed.
Lemma g_sse_or a b : g (sse_BitOr a b) = BitOr (g a) (g b). Proof. apply get_or, w1. Qed.
Lemma g_sse_xor a b : g (sse_BitXor a b) = BitXor (g a) (g b). Proof. apply get_xor, w1. Qed.
Lemma ldiff_m1 x : Z.ldiff (-1) x = Z.lnot x.
Proof. apply eq_bits. intros j Hj. rewrite Z.ldiff_spec, Z.bits_m1, Z.lnot_spec by lia. reflexivity. Qed.
Lemma lxor_m1 x : Z.lxor x (-1) = Z.lnot x.
Proof. apply eq_bits. intros j Hj. rewrite Z.lxor_spec, Z.bits_m1, Z.lnot_spec by lia. now rewrite Bool.xorb_true_r. Qed.
Lemma g_sse_not a : g (sse_BitNot w a) = BitNot (g a).
Proof. unfold sse_BitNot, mm_andnot. rewrite get_diff by exact w1. rewrite g_dup, wrapS_m1. apply ldiff_m1. Qed.
Lemma g_neon_not a : g (neon_BitNot w a) = BitNot (g a).
Proof. unfold neon_BitNot, veor. rewrite get_xor by exact w1. rewrite g_ndup, wrapS_m1. apply lxor_m1. Qed.
Lemma g_neon_and a b : g (neon_BitAnd a b) = BitAnd (g a) (g b). Proof. apply get_and, w1. Qed.
Lemma g_neon_or a b : g (neon_BitOr a b) = BitOr (g a) (g b). Proof. apply get_or, w1. Qed.
Lemma g_neon_xor a b : g (neon_BitXor a b) = BitXor (g a) (g b). Proof. apply get_xor, w1. Qed.

Lemma g_add a b : g (map2 w Z.add a b) = wrapS w (g a + g b). Proof. lane. reflexivity. Qed.
Lemma g_sub a b : g (map2 w Z.sub a b) = wrapS w (g a - g b). Proof. lane. reflexivity. Qed.
Lemma g_mul a b : g (map2 w Z.mul a b) = wrapS w (g a * g b). Proof. lane. reflexivity. Qed.
Lemma g_sse_neg a : g (sse_Neg w a) = wrapS w (- g a).
Proof. unfold sse_Neg, mm_sign. lane. rewrite g_dup, wrapS_m1. reflexivity. Qed.
Lemma g_neon_neg a : g (neon_Neg w a) = wrapS w (- g a).
Proof. unfold neon_Neg, vneg. lane. reflexivity. Qed.

(* shifts *)
Lemma shiftr_fits x n : int_min w <= x <= int_max w -> 0 <= n -> int_min w <= Z.shiftr x n <= int_max w.
Proof.
  intros Hx Hn. rewrite Z.shiftr_div_pow2 by lia. assert (1 <= 2 ^ n) by (assert (0 < 2 ^ n) by (apply Z.pow_pos_nonneg; lia); lia).
  unfold int_min, int_max in *. assert (0 < 2 ^ (w - 1)) by (apply Z.pow_pos_nonneg; destruct Hw; lia).
  split; [apply Z.div_le_lower_bound; nia|]. destruct (Z_lt_le_dec x 0).
  - assert (x / 2 ^ n < 0) by (apply Z.div_lt_upper_bound; lia). lia.
  - pose proof (Z.div_le_upper_bound x (2 ^ n) x ltac:(lia) ltac:(nia)). lia.
Qed.
Lemma shiftr_big x n : int_min w <= x <= int_max w -> w - 1 <= n -> Z.shiftr x n = Z.shiftr x (w - 1).
Proof.
  intros Hx Hn. pose proof w1. apply eq_bits. intros j Hj. rewrite !Z.shiftr_spec by lia.
  rewrite !(bits_small x w) by lia. reflexivity.
Qed.
Lemma g_sse_shr a n : 0 <= n -> g (sse_ShiftRight w a n) = Z.shiftr (g a) n.
Proof.
  intros Hn. pose proof w1. unfold sse_ShiftRight, mm_srai. lane.
  rewrite wrapS_small; [|exact w1|apply shiftr_fits; [apply get_range, w1|lia]].
  destruct (Z_lt_le_dec n (w - 1)); [now rewrite Z.min_l by lia|].
  rewrite Z.min_r by lia. symmetry. apply shiftr_big; [apply get_range, w1|lia].
Qed.
Lemma g_srai a n : 0 <= n -> g (mm_srai w a n) = Z.shiftr (g a) n.
Proof. exact (g_sse_shr a n). Qed.
Lemma wrapS8_dup n : -128 <= n <= 127 -> wrapS 8 (wrapS w n) = n.
Proof.
  intros Hn. rewrite (wrapS_small w); [apply wrapS_small; [lia|unfold int_min, int_max; cbn; lia]|exact w1|].
  unfold int_min, int_max. destruct Hw; subst w; cbn; lia.
Qed.
Lemma g_neon_shr a n : 0 <= n <= 127 -> g (neon_ShiftRight w a n) = Z.shiftr (g a) n.
Proof.
  intros Hn. unfold neon_ShiftRight, vshl. lane. rewrite g_ndup, wrapS8_dup by lia.
  change (Z.shiftl (g a) (- n)) with (Z.shiftr (g a) (- - n)) at 1 || idtac.
  rewrite <- (Z.opp_involutive n) at 2. rewrite Z.shiftr_opp_r.
  apply wrapS_small; [exact w1|]. rewrite <- Z.shiftr_opp_r, Z.opp_involutive. apply shiftr_fits; [apply get_range, w1|lia].
Qed.
Lemma wrapS_shiftl_big x n : w <= n -> wrapS w (Z.shiftl x n) = 0.
Proof.
  intros Hn. pose proof w1. rewrite <- wrapS_0. apply wrapS_eq_mod; [lia|].
  rewrite Z.shiftl_mul_pow2 by lia. replace n with ((n - w) + w) by lia. rewrite Z.pow_add_r, Z.mul_assoc by lia.
  assert (0 < 2 ^ w) by (apply Z.pow_pos_nonneg; lia). rewrite Z.mod_mul, Z.mod_0_l by lia. reflexivity.
Qed.
Lemma g_sse_shl a n : 0 <= n -> g (sse_ShiftLeft w a n) = wrapS w (g a * 2 ^ n).
Proof.
  intros Hn. unfold sse_ShiftLeft, mm_slli. lane. rewrite <- Z.shiftl_mul_pow2 by lia.
  destruct (n >? w - 1) eqn:E; [|reflexivity]. rewrite wrapS_0, wrapS_shiftl_big; [reflexivity|lia].
Qed.
Lemma g_neon_shl a n : 0 <= n <= 127 -> g (neon_ShiftLeft w a n) = wrapS w (g a * 2 ^ n).
Proof.
  intros Hn. unfold neon_ShiftLeft, vshl. lane. rewrite g_ndup, wrapS8_dup by lia. now rewrite Z.shiftl_mul_pow2 by lia.
Qed.
Lemma g_neon_shlv a off : 0 <= get w i off <= 127 -> g (neon_ShiftLeftV w a off) = wrapS w (g a * 2 ^ get w i off).
Proof.
  intros Hn. unfold neon_ShiftLeftV, vshl. lane. rewrite (wrapS_small 8) by (unfold int_min, int_max; cbn; lia).
  now rewrite Z.shiftl_mul_pow2 by lia.
Qed.

(* masks and selection *)
Lemma sel_or m t e : Z.lor (Z.land m t) (Z.ldiff e m) = SelectUsingMask m t e.
Proof.
  unfold SelectUsingMask, BitXor, BitAnd, BitNot. apply eq_bits. intros j Hj.
  rewrite Z.lor_spec, Z.lxor_spec, !Z.land_spec, Z.ldiff_spec, Z.lnot_spec by lia.
  destruct (Z.testbit m j), (Z.testbit t j), (Z.testbit e j); reflexivity.
Qed.
Lemma g_sse_sel m t e : g (sse_SelectUsingMask m t e) = SelectUsingMask (g m) (g t) (g e).
Proof. unfold sse_SelectUsingMask, mm_or, mm_and, mm_andnot. pose proof w1. rewrite get_or, get_and, get_diff by lia. apply sel_or. Qed.
Lemma g_neon_sel m t e : g (neon_SelectUsingMask m t e) = SelectUsingMask (g m) (g t) (g e).
Proof. exact (g_sse_sel m t e). Qed.
Lemma mask_ones b : MaskIfNonZero (b2z b) = ones b. Proof. destruct b; reflexivity. Qed.
Lemma g_map2_ones f a b : g (map2 w (fun x y => ones (f x y)) a b) = ones (f (g a) (g b)).
Proof. lane. apply wrapS_ones, w1. Qed.
Lemma not_ones b : BitNot (ones b) = ones (negb b). Proof. destruct b; reflexivity. Qed.
Lemma g_eq a b : g (map2 w (fun x y => ones (x =? y)) a b) = MaskIfEqual (g a) (g b).
Proof. rewrite (g_map2_ones Z.eqb). unfold MaskIfEqual. now rewrite mask_ones. Qed.
Lemma g_gt a b : g (map2 w (fun x y => ones (x >? y)) a b) = MaskIfGreaterThan (g a) (g b).
Proof. rewrite (g_map2_ones Z.gtb). unfold MaskIfGreaterThan. now rewrite mask_ones. Qed.
Lemma g_lt a b : g (map2 w (fun x y => ones (x <? y)) a b) = MaskIfLessThan (g a) (g b).
Proof. rewrite (g_map2_ones Z.ltb). unfold MaskIfLessThan. now rewrite mask_ones. Qed.
Lemma g_ge a b : g (map2 w (fun x y => ones (x >=? y)) a b) = MaskIfGreaterThanOrEqual (g a) (g b).
Proof. rewrite (g_map2_ones Z.geb). unfold MaskIfGreaterThanOrEqual. now rewrite mask_ones. Qed.
Lemma g_le a b : g (map2 w (fun x y => ones (x <=? y)) a b) = MaskIfLessThanOrEqual (g a) (g b).
Proof. rewrite (g_map2_ones Z.leb). unfold MaskIfLessThanOrEqual. now rewrite mask_ones. Qed.
Lemma g_sse_eq a b : g (sse_MaskIfEqual w a b) = MaskIfEqual (g a) (g b). Proof. exact (g_eq a b). Qed.
Lemma g_neon_eq a b : g (neon_MaskIfEqual w a b) = MaskIfEqual (g a) (g b). Proof. exact (g_eq a b). Qed.
Lemma g_cmpeq a b : g (mm_cmpeq w a b) = MaskIfEqual (g a) (g b). Proof. exact (g_eq a b). Qed.
Lemma g_vneg a : g (vneg w a) = wrapS w (- g a). Proof. exact (g_neon_neg a). Qed.
Lemma g_sse_gt a b : g (sse_MaskIfGreaterThan w a b) = MaskIfGreaterThan (g a) (g b). Proof. exact (g_gt a b). Qed.
Lemma g_sse_lt a b : g (sse_MaskIfLessThan w a b) = MaskIfLessThan (g a) (g b). Proof. exact (g_lt a b). Qed.
Lemma g_neon_gt a b : g (neon_MaskIfGreaterThan w a b) = MaskIfGreaterThan (g a) (g b). Proof. exact (g_gt a b). Qed.
Lemma g_neon_lt a b : g (neon_MaskIfLessThan w a b) = MaskIfLessThan (g a) (g b). Proof. exact (g_lt a b). Qed.
Lemma g_neon_ge a b : g (neon_MaskIfGreaterThanOrEqual w a b) = MaskIfGreaterThanOrEqual (g a) (g b). Proof. exact (g_ge a b). Qed.
Lemma g_neon_le a b : g (neon_MaskIfLessThanOrEqual w a b) = MaskIfLessThanOrEqual (g a) (g b). Proof. exact (g_le a b). Qed.
Lemma not_mask b c : negb b = c -> BitNot (MaskIfNonZero (b2z b)) = MaskIfNonZero (b2z c).
Proof. intros <-. rewrite !mask_ones. apply not_ones. Qed.
Lemma g_sse_ge a b : g (sse_MaskIfGreaterThanOrEqual w a b) = MaskIfGreaterThanOrEqual (g a) (g b).
Proof. unfold sse_MaskIfGreaterThanOrEqual. rewrite g_sse_not, g_sse_lt. apply not_mask. lia. Qed.
Lemma g_sse_le a b : g (sse_MaskIfLessThanOrEqual w a b) = MaskIfLessThanOrEqual (g a) (g b).
Proof. unfold sse_MaskIfLessThanOrEqual. rewrite g_sse_not, g_sse_gt. apply not_mask. lia. Qed.
Lemma g_sse_ne a b : g (sse_MaskIfNotEqual w a b) = MaskIfNotEqual (g a) (g b).
Proof. unfold sse_MaskIfNotEqual. rewrite g_sse_not, g_sse_eq. now apply not_mask. Qed.
Lemma g_neon_ne a b : g (neon_MaskIfNotEqual w a b) = MaskIfNotEqual (g a) (g b).
Proof. unfold neon_MaskIfNotEqual. rewrite g_neon_not, g_neon_eq. now apply not_mask. Qed.
Lemma mask_nz_ones x : MaskIfNonZero x = ones (negb (x =? 0)).
Proof. unfold MaskIfNonZero. destruct (x =? 0); reflexivity. Qed.
Lemma g_sse_z a : g (sse_MaskIfZero w a) = MaskIfZero (g a).
Proof. unfold sse_MaskIfZero. now rewrite g_sse_eq, g_dup, wrapS_0. Qed.
Lemma g_neon_z a : g (neon_MaskIfZero w a) = MaskIfZero (g a).
Proof. unfold neon_MaskIfZero. now rewrite g_neon_eq, g_ndup, wrapS_0. Qed.
Lemma g_sse_nz a : g (sse_MaskIfNonZero w a) = MaskIfNonZero (g a).
Proof. unfold sse_MaskIfNonZero. rewrite g_sse_ne, g_dup, wrapS_0. unfold MaskIfNotEqual. now rewrite mask_ones, mask_nz_ones. Qed.
Lemma g_neon_nz a : g (neon_MaskIfNonZero w a) = MaskIfNonZero (g a).
Proof.
  unfold neon_MaskIfNonZero, vtst. rewrite (g_map2_ones (fun x y => negb (Z.land x y =? 0))).
  now rewrite Z.land_diag, mask_nz_ones.
Qed.

(* saturating addition, half sums *)
Lemma g_qadd a b : g (map2 w (fun x y => saturate w (x + y)) a b) = clamp_int w (g a + g b).
Proof. lane. pose proof w1. rewrite wrapS_small by (try apply saturate_fits; lia). apply saturate_clamp. lia. Qed.
Lemma g_neon_half a b : g (neon_RoundingHalfSum w a b) = (g a + g b + 1) / 2.
Proof.
  unfold neon_RoundingHalfSum, vrhadd. lane. rewrite Z.shiftr_div_pow2 by lia. change (2 ^ 1) with 2.
  apply wrapS_small; [exact w1|]. pose proof (get_range w i a w1). pose proof (get_range w i b w1).
  unfold int_min, int_max in *. lia.
Qed.
End Lane.

Lemma pows16 : 2 ^ (16 - 1) = 32768. Proof. reflexivity. Qed.
Lemma g_sse_half16 i a b : 0 <= i < 8 -> get 16 i (sse_RoundingHalfSum16 a b) = (get 16 i a + get 16 i b + 1) / 2.
Proof.
  intros Hi. assert (Hl : 0 <= i < lanes 16) by (unfold lanes; cbn; lia).
  assert (W : w1632 16) by now left.
  unfold sse_RoundingHalfSum16, mm_add, mm_sub. rewrite (g_add 16 i W Hl). unfold mm_avg_epu16.
  rewrite get_pack by lia. rewrite !getU_get by lia. rewrite !(g_sub 16 i W Hl).
  rewrite (g_dup 16 i W Hl). change (wrapS 16 (-32768)) with (-32768).
  pose proof (get_range 16 i a ltac:(lia)) as Ra. pose proof (get_range 16 i b ltac:(lia)) as Rb.
  unfold int_min, int_max in *. rewrite pows16 in *.
  set (x := get 16 i a) in *. set (y := get 16 i b) in *.
  assert (U : forall z, -32768 <= z <= 32767 -> wrapU 16 (wrapS 16 (z - -32768)) = z + 32768).
  { intros z Hz. unfold wrapU. rewrite wrapS_mod by lia. change (2 ^ 16) with 65536. rewrite Z.mod_small; lia. }
  rewrite !U by lia. rewrite wrapS_add_l by lia.
  rewrite Z.shiftr_div_pow2 by lia. change (2 ^ 1) with 2.
  replace (x + 32768 + (y + 32768) + 1) with ((x + y + 1) + 32768 * 2) by lia. rewrite Z.div_add by lia.
  replace ((x + y + 1) / 2 + 32768 + -32768) with ((x + y + 1) / 2) by lia.
  apply wrapS_small; [lia|]. unfold int_min, int_max. rewrite pows16. lia.
Qed.

Lemma land_sign x : int_min 32 <= x <= int_max 32 -> Z.land x (-2147483648) = if x <? 0 then -2147483648 else 0.
Proof.
  intros H. change (-2147483648) with (Z.lnot (Z.ones 31)). rewrite <- Z.ldiff_land. rewrite Z.ldiff_ones_r by lia.
  rewrite Z.shiftl_mul_pow2, Z.shiftr_div_pow2 by lia. unfold int_min, int_max in H. change (2 ^ (32 - 1)) with 2147483648 in H.
  change (2 ^ 31) with 2147483648. change (Z.lnot (Z.ones 31)) with (-2147483648). destruct (x <? 0) eqn:E.
  - replace (x / 2147483648) with (-1); [reflexivity|]. apply (Z.div_unique x 2147483648 (-1) (x + 2147483648)); lia.
  - rewrite Z.div_small; lia.
Qed.
Lemma lxor_sign x : int_min 32 <= x <= int_max 32 -> Z.lxor x (-2147483648) = if x <? 0 then x + 2147483648 else x - 2147483648.
Proof.
  intros H. assert (B : int_min 32 <= (if x <? 0 then x + 2147483648 else x - 2147483648) <= int_max 32).
  { unfold int_min, int_max in *. change (2 ^ (32 - 1)) with 2147483648 in *. destruct (x <? 0) eqn:E; lia. }
  apply eq_bits. intros j Hj. rewrite Z.lxor_spec.
  destruct (Z_lt_le_dec j 31).
  - replace (Z.testbit (-2147483648) j) with false.
    + rewrite Bool.xorb_false_r. apply (bits_mod _ _ 31); [lia|]. change (2 ^ 31) with 2147483648.
      destruct (x <? 0); [rewrite <- (Z.mod_add x 1) by lia; f_equal; lia|rewrite <- (Z.mod_add x (-1)) by lia; f_equal; lia].
    + symmetry. change (-2147483648) with (Z.lnot (Z.ones 31)). rewrite Z.lnot_spec, Z.ones_spec_low by lia. reflexivity.
  - rewrite !(bits_small _ 32) by (try lia; unfold int_min, int_max; cbn; lia).
    unfold int_min, int_max in H. change (2 ^ (32 - 1)) with 2147483648 in H. destruct (x <? 0) eqn:E; cbn; lia.
Qed.
Lemma lxor_neg x y : (Z.lxor x y <? 0) = xorb (x <? 0) (y <? 0).
Proof.
  pose proof (Z.lxor_nonneg x y) as L. destruct (Z.lxor x y <? 0) eqn:E1, (x <? 0) eqn:E2, (y <? 0) eqn:E3; cbn; try reflexivity; exfalso; lia.
Qed.
Lemma land_neg x y : (Z.land x y <? 0) = (x <? 0) && (y <? 0).
Proof.
  pose proof (Z.land_neg x y) as L. destruct (Z.land x y <? 0) eqn:E1, (x <? 0) eqn:E2, (y <? 0) eqn:E3; cbn; try reflexivity; exfalso; lia.
Qed.
Lemma half32_core x y : int_min 32 <= x <= int_max 32 -> int_min 32 <= y <= int_max 32 ->
  let r := Z.shiftr (wrapS 32 (x + y + 1)) 1 in
  Z.lxor r (Z.land (Z.land (Z.lxor x r) (Z.lxor y r)) (-2147483648)) = (x + y + 1) / 2.
Proof.
  intros Ra Rb. cbv zeta. assert (W : w1632 32) by now right.
  pose proof (wrapS_range 32 (x + y + 1) ltac:(lia)) as Rw.
  set (r := Z.shiftr (wrapS 32 (x + y + 1)) 1).
  assert (Rr : int_min 32 <= r <= int_max 32) by (apply shiftr_fits; [exact W|exact Rw|lia]).
  assert (RX : forall u, int_min 32 <= u <= int_max 32 -> int_min 32 <= Z.lxor u r <= int_max 32).
  { intros u Hu. rewrite <- (wrapS_small 32 u), <- (wrapS_small 32 r), <- wrapS_lxor by (assumption || lia). apply wrapS_range. lia. }
  rewrite land_sign.
  2: { rewrite <- (wrapS_small 32 (Z.lxor x r)), <- (wrapS_small 32 (Z.lxor y r)), <- wrapS_land by (auto || lia). apply wrapS_range. lia. }
  rewrite land_neg, !lxor_neg.
  assert (Er : r = wrapS 32 (x + y + 1) / 2) by (unfold r; rewrite Z.shiftr_div_pow2 by lia; reflexivity).
  assert (Ew : wrapS 32 (x + y + 1) = if x + y + 1 <? -2147483648 then x + y + 1 + 4294967296 else if x + y + 1 >? 2147483647 then x + y + 1 - 4294967296 else x + y + 1).
  { destruct (x + y + 1 <? -2147483648) eqn:E1; [|destruct (x + y + 1 >? 2147483647) eqn:E2].
    - rewrite <- (wrapS_small 32 (x + y + 1 + 4294967296)); [apply wrapS_eq_mod; [lia|]; change (2 ^ 32) with 4294967296; rewrite <- (Z.mod_add (x + y + 1) 1) by lia; f_equal; lia|lia|].
      unfold int_min, int_max in *. change (2 ^ (32 - 1)) with 2147483648 in *. lia.
    - rewrite <- (wrapS_small 32 (x + y + 1 - 4294967296)); [apply wrapS_eq_mod; [lia|]; change (2 ^ 32) with 4294967296; rewrite <- (Z.mod_add (x + y + 1) (-1)) by lia; f_equal; lia|lia|].
      unfold int_min, int_max in *. change (2 ^ (32 - 1)) with 2147483648 in *. lia.
    - apply wrapS_small; [lia|]. unfold int_min, int_max. change (2 ^ (32 - 1)) with 2147483648. lia. }
  clearbody r. rewrite Ew in Er. clear Ew Rw RX.
  assert (Hx : -2147483648 <= x <= 2147483647) by (unfold int_min, int_max in *; change (2 ^ (32 - 1)) with 2147483648 in *; lia).
  assert (Hy : -2147483648 <= y <= 2147483647) by (unfold int_min, int_max in *; change (2 ^ (32 - 1)) with 2147483648 in *; lia).
  clear Ra Rb.
  destruct (xorb (x <? 0) (r <? 0) && xorb (y <? 0) (r <? 0)) eqn:O.
  - rewrite lxor_sign by exact Rr. clear Rr.
    destruct (x + y + 1 <? -2147483648) eqn:E1; [|destruct (x + y + 1 >? 2147483647) eqn:E2];
      destruct (r <? 0) eqn:E3, (x <? 0) eqn:E4, (y <? 0) eqn:E5; cbn in O; try discriminate; lia.
  - rewrite Z.lxor_0_r. clear Rr.
    destruct (x + y + 1 <? -2147483648) eqn:E1; [|destruct (x + y + 1 >? 2147483647) eqn:E2];
      destruct (r <? 0) eqn:E3, (x <? 0) eqn:E4, (y <? 0) eqn:E5; cbn in O; try discriminate; lia.
Qed.
Lemma g_sse_half32 i a b : 0 <= i < 4 -> get 32 i (sse_RoundingHalfSum32 a b) = (get 32 i a + get 32 i b + 1) / 2.
Proof.
  intros Hi. assert (Hl : 0 <= i < lanes 32) by (unfold lanes; cbn; lia).
  assert (W : w1632 32) by now right.
  unfold sse_RoundingHalfSum32. rewrite (g_sse_xor 32 i W). rewrite !(g_sse_and 32 i W), !(g_sse_xor 32 i W).
  rewrite !(g_srai 32 i W Hl) by lia.
  unfold sse_Add, mm_add. rewrite !(g_add 32 i W Hl). rewrite !(g_dup 32 i W Hl).
  change (wrapS 32 1) with 1. change (wrapS 32 2147483648) with (-2147483648).
  rewrite wrapS_add_l by lia.
  pose proof (get_range 32 i a ltac:(lia)) as Ra. pose proof (get_range 32 i b ltac:(lia)) as Rb.
  apply half32_core; assumption.
Qed.
