(* SimdProofs5.v: every lane of the WebAssembly and MSA operations *)
From Verif Require Import Base BaseLemmas FixedPointModel FixedPointSpec FixedPointProofs
  SimdModel SimdProofs SimdProofs2 SimdProofs3 SimdProofs4 SimdModel2.

Record ops_ok (s : simd_ops) (w i : Z) : Prop := mk_ops_ok {
  o_dup : forall x, get w i (s_dup s x) = wrapS w x;
  o_and : forall a b, get w i (s_and s a b) = BitAnd (get w i a) (get w i b);
  o_or : forall a b, get w i (s_or s a b) = BitOr (get w i a) (get w i b);
  o_xor : forall a b, get w i (s_xor s a b) = BitXor (get w i a) (get w i b);
  o_not : forall a, get w i (s_not s a) = BitNot (get w i a);
  o_add : forall a b, get w i (s_add s a b) = wrapS w (get w i a + get w i b);
  o_sub : forall a b, get w i (s_sub s a b) = wrapS w (get w i a - get w i b);
  o_neg : forall a, get w i (s_neg s a) = wrapS w (- get w i a);
  o_shl : forall a n, 0 <= n <= w - 1 -> get w i (s_shl s a n) = wrapS w (get w i a * 2 ^ n);
  o_shr : forall a n, 0 <= n <= w - 1 -> get w i (s_shr s a n) = Z.shiftr (get w i a) n;
  o_sel : forall m t e, get w i m = 0 \/ get w i m = -1 -> get w i (s_select s m t e) = SelectUsingMask (get w i m) (get w i t) (get w i e);
  o_eq : forall a b, get w i (s_eq s a b) = MaskIfEqual (get w i a) (get w i b);
  o_ne : forall a b, get w i (s_ne s a b) = MaskIfNotEqual (get w i a) (get w i b);
  o_z : forall a, get w i (s_zero s a) = MaskIfZero (get w i a);
  o_nz : forall a, get w i (s_nonzero s a) = MaskIfNonZero (get w i a);
  o_gt : forall a b, get w i (s_gt s a b) = MaskIfGreaterThan (get w i a) (get w i b);
  o_ge : forall a b, get w i (s_ge s a b) = MaskIfGreaterThanOrEqual (get w i a) (get w i b);
  o_lt : forall a b, get w i (s_lt s a b) = MaskIfLessThan (get w i a) (get w i b);
  o_le : forall a b, get w i (s_le s a b) = MaskIfLessThanOrEqual (get w i a) (get w i b);
  o_half : forall a b, get w i (s_halfsum s a b) = (get w i a + get w i b + 1) / 2;
  o_mul : forall a b, ~ (get w i a = int_min w /\ get w i b = int_min w) -> get w i (s_mul s a b) = SaturatingRoundingDoublingHighMul w (get w i a) (get w i b);
  o_sat : forall a b, w = 16 -> get w i (s_addsat16 s a b) = clamp_int 16 (get w i a + get w i b);
  o_div : forall x e, 0 <= e <= w - 1 -> exists r, s_divide s x e = Some r /\ get w i r = rnd_away (get w i x) (2 ^ e);
  o_pot : forall e x, - (w - 1) <= e <= w - 1 -> e <= 30 ->
    exists r, s_pot s e x = Some r /\ SaturatingRoundingMultiplyByPOT Trap w e (get w i x) = Some (get w i r) }.

Lemma ops_lane s w i : w1632 w -> ops_ok s w i -> lane_ok (vops_of w s) w i.
Proof.
  intros W K. constructor; cbn [vops_of v_dup v_and v_add v_sub v_neg v_select v_nonzero v_zero v_gt v_lt v_halfsum v_addsat v_mul v_pot].
  - exact (o_dup _ _ _ K).
  - exact (o_and _ _ _ K).
  - exact (o_add _ _ _ K).
  - exact (o_sub _ _ _ K).
  - exact (o_neg _ _ _ K).
  - exact (o_sel _ _ _ K).
  - exact (o_nz _ _ _ K).
  - exact (o_z _ _ _ K).
  - exact (o_gt _ _ _ K).
  - exact (o_lt _ _ _ K).
  - exact (o_half _ _ _ K).
  - intros a b r H. destruct (Z.eq_dec w 16) as [-> | N].
    + change (16 =? 16) with true. cbn iota. rewrite (o_sat _ _ _ K) by reflexivity. exact (sat16 a b r i _ _ eq_refl eq_refl H).
    + assert (E : w = 32) by (destruct W; congruence). replace (w =? 16) with false by lia.
      rewrite (o_add _ _ _ K). exact (sat32 w _ _ r E H).
  - exact (o_mul _ _ _ K).
  - exact (o_pot _ _ _ K).
Qed.

(* ------------------------------------------------------------------ *)
(* the templates of fixedpoint.h *)
Lemma wrapS_1 w : w1632 w -> wrapS w 1 = 1. Proof. intros [-> | ->]; reflexivity. Qed.
Section Pot.
Variables (q : pot_ops) (w i : Z).
Hypothesis W : w1632 w.
Local Notation g := (get w i).
Hypothesis Hdup : forall x, g (q_dup q x) = wrapS w x.
Hypothesis Hand : forall a b, g (q_and q a b) = BitAnd (g a) (g b).
Hypothesis Hadd : forall a b, g (q_add q a b) = wrapS w (g a + g b).
Hypothesis Hshl : forall a n, 0 <= n <= w - 1 -> g (q_shl q a n) = wrapS w (g a * 2 ^ n).
Hypothesis Hshr : forall a n, 0 <= n <= w - 1 -> g (q_shr q a n) = Z.shiftr (g a) n.
Hypothesis Hlt : forall a b, g (q_lt q a b) = MaskIfLessThan (g a) (g b).
Hypothesis Hgt : forall a b, g (q_gt q a b) = MaskIfGreaterThan (g a) (g b).
Hypothesis Hsel : forall m t e, g m = 0 \/ g m = -1 -> g (q_select q m t e) = SelectUsingMask (g m) (g t) (g e).
Lemma q_rdpot x e : 0 <= e <= w - 1 -> exists r, q_RoundingDivideByPOT q x e = Some r /\ g r = rnd_away (g x) (2 ^ e).
Proof.
  intros He. pose proof (w1 w W) as H1. pose proof (rdpot_eq Wrap w (g x) e W (get_fits w i x H1) He) as R.
  unfold q_RoundingDivideByPOT, guard. unfold RoundingDivideByPOT, guard in R.
  replace (0 <=? e) with true in * by lia. replace (e <=? 31) with true in * by (destruct W; lia). cbn [bind] in *.
  unfold ShiftRight at 1 in R. change ((0 <=? 1) && (1 <? 32)) with true in R. cbn [bind] in R.
  unfold Add at 1 in R. unfold norm in R. cbn [bind] in R. unfold ShiftRight in R.
  replace ((0 <=? e) && (e <? 32)) with true in R by (destruct W; lia). cbn [bind] in R. unfold Add, norm in R. apply Some_inj in R.
  eexists. split; [reflexivity|]. rewrite <- R.
  rewrite !Hadd, !Hshr, !Hand, Hgt, !Hand, !Hdup by (destruct W; lia).
  rewrite Hadd, Hshr, Hand, Hlt, !Hdup by (destruct W; lia). now rewrite (wrapS_0 w W), (wrapS_1 w W).
Qed.
Lemma q_srm e x : - (w - 1) <= e <= w - 1 -> e <= 30 ->
  exists r, q_SaturatingRoundingMultiplyByPOT q w e x = Some r /\ SaturatingRoundingMultiplyByPOT Trap w e (g x) = Some (g r).
Proof.
  intros He H30. pose proof (w1 w W) as H1. assert (Fx : fits w (g x)) by (apply get_fits; lia).
  unfold q_SaturatingRoundingMultiplyByPOT. destruct (e =? 0) eqn:E0.
  { assert (e = 0) by lia. subst e. exists x. split; reflexivity. }
  destruct (e >? 0) eqn:E1.
  - rewrite srmpot_pos_eq by (assumption || lia).
    unfold one_shl_int. replace ((0 <=? w - 1 - e) && (w - 1 - e <=? 31)) with true by (destruct W; lia).
    assert (HP : 0 < 2 ^ (w - 1 - e)) by (apply Z.pow_pos_nonneg; lia).
    assert (HE : 2 ^ (w - 1) = 2 ^ (w - 1 - e) * 2 ^ e) by (rewrite <- Z.pow_add_r by lia; f_equal; lia).
    assert (He2 : 2 <= 2 ^ e) by (change 2 with (2 ^ 1) at 1; apply Z.pow_le_mono_r; lia).
    assert (HW : 2 ^ (w - 1) <= 2147483648) by (destruct W; subst w; cbn; lia).
    rewrite norm_fits by (try lia; unfold int_min, int_max; change (2 ^ (32 - 1)) with 2147483648; nia).
    cbn [bind]. eexists. split; [reflexivity|]. f_equal.
    rewrite Hsel by (rewrite Hlt; apply nz_mask). rewrite Hsel by (rewrite Hgt; apply nz_mask).
    rewrite Hgt, Hlt, !Hdup, Hshl by lia.
    set (T := 2 ^ (w - 1 - e)) in *. set (y := g x) in *.
    rewrite !(wrapS_small w (_ - 1)), !(wrapS_small w (- _)), !(wrapS_small w (int_max w)), !(wrapS_small w (int_min w))
      by (try lia; unfold int_min, int_max; nia).
    unfold MaskIfGreaterThan, MaskIfLessThan. rewrite !mask_b2z, !sel_mask.
    unfold clamp_int, clampZ. unfold fits in Fx. destruct (y <? - (T - 1)) eqn:B1.
    + destruct (y * 2 ^ e <? - 2 ^ (w - 1)) eqn:B2; [reflexivity|].
      destruct (2 ^ (w - 1) - 1 <? y * 2 ^ e) eqn:B3; [nia|]. unfold int_min. nia.
    + destruct (y >? T - 1) eqn:B2.
      * replace (y * 2 ^ e <? - 2 ^ (w - 1)) with false by nia. replace (2 ^ (w - 1) - 1 <? y * 2 ^ e) with true by nia. reflexivity.
      * replace (y * 2 ^ e <? - 2 ^ (w - 1)) with false by nia. replace (2 ^ (w - 1) - 1 <? y * 2 ^ e) with false by nia.
        symmetry. apply wrapS_small; [lia|]. unfold int_min, int_max. nia.
  - rewrite srmpot_neg_eq by (assumption || lia). destruct (q_rdpot x (- e) ltac:(lia)) as (r & E & G).
    exists r. split; [exact E|]. now rewrite G.
Qed.
End Pot.

(* ------------------------------------------------------------------ *)
(* operations WebAssembly and MSA share *)
Section Lane.
Variables w i : Z.
Hypothesis W : w1632 w.
Hypothesis Hi : 0 <= i < lanes w.
Local Notation g := (get w i).
Lemma full_ones : 2 ^ 128 - 1 = mm_set1 w (-1).
Proof. destruct W; subst w; vm_compute; reflexivity. Qed.
Lemma g_wnot a : g (wasm_BitNot a) = BitNot (g a).
Proof. unfold wasm_BitNot, wasm_not. rewrite full_ones. exact (g_sse_not w i W Hi a). Qed.
Lemma g_mnot a : g (msa_BitNot a) = BitNot (g a).
Proof. unfold msa_BitNot, msa_nor. rewrite Z.lor_diag. exact (g_wnot a). Qed.
Lemma g_wshl a n : 0 <= n <= w - 1 -> g (wasm_shl w a n) = wrapS w (g a * 2 ^ n).
Proof.
  intros Hn. unfold wasm_shl. rewrite get_map1 by (destruct W; lia). rewrite Z.mod_small by lia. now rewrite Z.shiftl_mul_pow2 by lia.
Qed.
Lemma g_wshr a n : 0 <= n <= w - 1 -> g (wasm_shr w a n) = Z.shiftr (g a) n.
Proof.
  intros Hn. pose proof (w1 w W). unfold wasm_shr. rewrite get_map1 by lia. rewrite Z.mod_small by lia.
  apply wrapS_small; [lia|]. apply shiftr_fits; [exact W|apply get_range; lia|lia].
Qed.
Lemma g_count n : 0 <= n <= w - 1 -> wrapS w n mod w = n.
Proof.
  intros Hn. rewrite wrapS_small; [apply Z.mod_small; lia|destruct W; lia|]. unfold int_min, int_max. destruct W; subst w; cbn; lia.
Qed.
Lemma g_mshl a n : 0 <= n <= w - 1 -> g (msa_ShiftLeft w a n) = wrapS w (g a * 2 ^ n).
Proof.
  intros Hn. pose proof (w1 w W). unfold msa_ShiftLeft, msa_sll, msa_fill. rewrite get_map2, get_pack by lia.
  rewrite g_count by lia. now rewrite Z.shiftl_mul_pow2 by lia.
Qed.
Lemma g_mshr a n : 0 <= n <= w - 1 -> g (msa_ShiftRight w a n) = Z.shiftr (g a) n.
Proof.
  intros Hn. pose proof (w1 w W). unfold msa_ShiftRight, msa_sra, msa_fill. rewrite get_map2, get_pack by lia.
  rewrite g_count by lia. apply wrapS_small; [lia|]. apply shiftr_fits; [exact W|apply get_range; lia|lia].
Qed.
Lemma g_wsel m t e : g (wasm_SelectUsingMask m t e) = SelectUsingMask (g m) (g t) (g e).
Proof. unfold wasm_SelectUsingMask, wasm_bitselect. rewrite (Z.land_comm t m). exact (g_sse_sel w i W m t e). Qed.
Lemma g_msel m t e : g (msa_SelectUsingMask m t e) = SelectUsingMask (g m) (g t) (g e).
Proof. unfold msa_SelectUsingMask, msa_bsel. rewrite Z.lor_comm, (Z.land_comm t m). exact (g_sse_sel w i W m t e). Qed.
Lemma g_wne a b : g (wasm_MaskIfNotEqual w a b) = MaskIfNotEqual (g a) (g b).
Proof. unfold wasm_MaskIfNotEqual. rewrite (g_map2_ones w i W Hi (fun x y => negb (x =? y))). unfold MaskIfNotEqual. now rewrite mask_ones. Qed.
Lemma g_wz a : g (wasm_MaskIfZero w a) = MaskIfZero (g a).
Proof. exact (g_sse_z w i W Hi a). Qed.
Lemma g_wnz a : g (wasm_MaskIfNonZero w a) = MaskIfNonZero (g a).
Proof.
  unfold wasm_MaskIfNonZero. rewrite g_wne. unfold wasm_Dup. rewrite get_pack by (destruct W; lia). rewrite (wrapS_0 w W).
  unfold MaskIfNotEqual. now rewrite mask_ones, mask_nz_ones.
Qed.
Lemma g_mz a : g (msa_MaskIfZero w a) = MaskIfZero (g a).
Proof. unfold msa_MaskIfZero. rewrite get_map1 by (destruct W; lia). rewrite wrapS_ones by (destruct W; lia). unfold MaskIfZero. now rewrite mask_ones. Qed.
Lemma g_mnz a : g (msa_MaskIfNonZero w a) = MaskIfNonZero (g a).
Proof.
  unfold msa_MaskIfNonZero. rewrite g_mnot, g_mz. unfold MaskIfZero. rewrite mask_ones, not_ones. now rewrite mask_nz_ones.
Qed.
Lemma g_mne a b : g (msa_MaskIfNotEqual w a b) = MaskIfNotEqual (g a) (g b).
Proof. unfold msa_MaskIfNotEqual. rewrite g_mnot. unfold msa_MaskIfEqual, msa_ceq. rewrite (g_eq w i W Hi). now apply not_mask. Qed.
Lemma g_mgt a b : g (msa_MaskIfGreaterThan w a b) = MaskIfGreaterThan (g a) (g b).
Proof.
  unfold msa_MaskIfGreaterThan, msa_clt. rewrite (g_lt w i W Hi). unfold MaskIfLessThan, MaskIfGreaterThan. do 2 f_equal. lia.
Qed.
Lemma g_mge a b : g (msa_MaskIfGreaterThanOrEqual w a b) = MaskIfGreaterThanOrEqual (g a) (g b).
Proof.
  unfold msa_MaskIfGreaterThanOrEqual, msa_cle. rewrite (g_le w i W Hi). unfold MaskIfLessThanOrEqual, MaskIfGreaterThanOrEqual. do 2 f_equal. lia.
Qed.
Lemma g_mneg a : g (msa_Neg w a) = wrapS w (- g a).
Proof.
  unfold msa_Neg, msa_Sub, msa_fill. rewrite (g_sub w i W Hi), get_pack by (destruct W; lia). rewrite (wrapS_0 w W). f_equal.
Qed.

(* MSA: products and powers of two *)
Lemma g_mmul a b : g (msa_SaturatingRoundingDoublingHighMul w a b) = SaturatingRoundingDoublingHighMul w (g a) (g b).
Proof.
  pose proof (w1 w W) as H1. unfold msa_SaturatingRoundingDoublingHighMul, msa_mulr_q. rewrite get_map2 by lia.
  pose proof (srdhm_fits w (g a) (g b) W (get_fits w i a H1) (get_fits w i b H1)) as F.
  rewrite (srdhm_eq w _ _ W) in * by (apply get_fits; lia). rewrite Z.shiftr_div_pow2 by lia.
  apply wrapS_small; [lia|]. now apply (proj1 (fits_int _ _)) in F.
Qed.
Lemma g_sign a : g (msa_srli w a (w - 1)) = if g a <? 0 then 1 else 0.
Proof.
  pose proof (w1 w W) as H1. unfold msa_srli. rewrite get_pack, getU_get by lia. rewrite Z.shiftr_div_pow2 by lia.
  pose proof (get_range w i a H1) as R. unfold int_min, int_max in R. unfold wrapU. pose proof (pow_split w H1) as E.
  assert (0 < 2 ^ (w - 1)) by (apply Z.pow_pos_nonneg; lia). destruct (g a <? 0) eqn:S.
  - replace (g a mod 2 ^ w) with (g a + 2 ^ w).
    + replace ((g a + 2 ^ w) / 2 ^ (w - 1)) with 1; [apply (wrapS_1 w W)|]. apply (Z.div_unique _ _ 1 (g a + 2 ^ (w - 1))); lia.
    + apply (Z.mod_unique _ _ (-1)); lia.
  - rewrite Z.mod_small by lia. rewrite Z.div_small by lia. apply (wrapS_0 w W).
Qed.
Lemma g_subs a b : g (msa_subs w a b) = saturate w (g a - g b).
Proof.
  pose proof (w1 w W) as H1. unfold msa_subs. rewrite get_map2 by lia. apply wrapS_small; [lia|]. apply saturate_fits. lia.
Qed.
Lemma minus_sign x : x - (if x <? 0 then 1 else 0) = x + (if x <? 0 then -1 else 0). Proof. destruct (x <? 0); lia. Qed.
Lemma g_mdiv x e : 0 <= e <= w - 1 -> g (msa_RoundingDivideByPOT w x e) = rnd_away (g x) (2 ^ e).
Proof.
  intros He. pose proof (w1 w W) as H1. pose proof (get_fits w i x H1) as Fx. unfold msa_RoundingDivideByPOT, msa_srar.
  assert (Ee : wrapS w e = e) by (apply wrapS_small; [lia|]; unfold int_min, int_max; destruct W; subst w; cbn; lia).
  assert (Ge : g (msa_fill w e) = e) by (unfold msa_fill; now rewrite get_pack by lia).
  rewrite get_map2, Ge by lia. cbv zeta. rewrite Z.mod_small by lia. rewrite g_subs. unfold msa_min. rewrite get_map2, Ge, g_sign by lia.
  destruct (e =? 0) eqn:E0.
  - assert (e = 0) by lia. subst e. change (2 ^ 0) with 1. rewrite rnd_away_1.
    replace (Z.min (if g x <? 0 then 1 else 0) 0) with 0 by (destruct (g x <? 0); reflexivity). rewrite (wrapS_0 w W), Z.sub_0_r.
    pose proof (proj1 (fits_int _ _) Fx) as R. replace (saturate w (g x)) with (g x) by (unfold saturate; lia). apply wrapS_small; lia.
  - replace (Z.min (if g x <? 0 then 1 else 0) e) with (if g x <? 0 then 1 else 0) by (destruct (g x <? 0); lia).
    rewrite (wrapS_small w (if g x <? 0 then 1 else 0)) by (try lia; unfold int_min, int_max; destruct (g x <? 0), W; subst w; cbn; lia).
    rewrite minus_sign, Z.shiftr_div_pow2 by lia. rewrite fixup_div by (assumption || lia).
    apply wrapS_small; [lia|]. apply away_fits; [exact W|exact Fx|lia].
Qed.
Lemma clamp_double x n : 0 <= n -> clamp_int w (clamp_int w (2 * x) * 2 ^ n) = clamp_int w (x * 2 ^ (n + 1)).
Proof.
  intros Hn. replace (2 ^ (n + 1)) with (2 * 2 ^ n) by (rewrite Z.pow_add_r by lia; change (2 ^ 1) with 2; lia).
  assert (0 < 2 ^ n) by (apply Z.pow_pos_nonneg; lia). assert (0 < 2 ^ (w - 1)) by (apply Z.pow_pos_nonneg; destruct W; lia).
  unfold clamp_int, clampZ. set (P := 2 ^ n) in *. set (M := 2 ^ (w - 1)) in *.
  destruct (2 * x <? - M) eqn:A; [|destruct (M - 1 <? 2 * x) eqn:B].
  - replace (x * (2 * P) <? - M) with true by nia. destruct (- M * P <? - M) eqn:C; [reflexivity|].
    replace (M - 1 <? - M * P) with false by nia. nia.
  - replace (x * (2 * P) <? - M) with false by nia. replace (M - 1 <? x * (2 * P)) with true by nia.
    replace ((M - 1) * P <? - M) with false by nia. destruct (M - 1 <? (M - 1) * P) eqn:C; [reflexivity|].
    assert (0 <= M - 1) by lia. nia.
  - replace (x * (2 * P)) with (2 * x * P) by lia. reflexivity.
Qed.
Lemma clamp_fits x : fits w x -> clamp_int w x = x.
Proof. unfold fits, clamp_int, clampZ. intros H. replace (x <? - 2 ^ (w - 1)) with false by lia. replace (2 ^ (w - 1) - 1 <? x) with false by lia. reflexivity. Qed.
Lemma g_double n : forall x, g (msa_double w n x) = clamp_int w (g x * 2 ^ Z.of_nat n).
Proof.
  pose proof (w1 w W) as H1. induction n as [| n IH]; intros x.
  - cbn [msa_double]. change (2 ^ Z.of_nat 0) with 1. rewrite Z.mul_1_r, clamp_fits by (apply get_fits; lia). reflexivity.
  - cbn [msa_double]. rewrite IH. unfold msa_adds. rewrite (g_qadd w i W Hi).
    replace (g x + g x) with (2 * g x) by lia. rewrite clamp_double by lia. do 3 f_equal. lia.
Qed.
Lemma lor_top n m : 0 <= m <= n -> Z.lor (2 ^ n - 2 ^ m) (2 ^ n - 1) = 2 ^ n - 1.
Proof.
  intros H. assert (0 < 2 ^ m) by (apply Z.pow_pos_nonneg; lia). assert (2 ^ m <= 2 ^ n) by (apply Z.pow_le_mono_r; lia).
  replace (2 ^ n - 1) with (Z.ones n) by (rewrite Z.ones_equiv; lia).
  destruct (Z.eq_dec (2 ^ n - 2 ^ m) 0) as [-> | N]; [apply Z.lor_0_l|].
  apply Z.lor_ones_low; [lia|]. apply Z.log2_lt_pow2; lia.
Qed.
Lemma g_mpot e x : - (w - 1) <= e <= w - 1 -> e <= 30 ->
  SaturatingRoundingMultiplyByPOT Trap w e (g x) = Some (g (msa_SaturatingRoundingMultiplyByPOT w e x)).
Proof.
  intros He H30. pose proof (w1 w W) as H1. assert (Fx : fits w (g x)) by (apply get_fits; lia).
  unfold msa_SaturatingRoundingMultiplyByPOT. destruct (e =? 0) eqn:E0.
  { assert (e = 0) by lia. subst e. reflexivity. }
  destruct (e >? 0) eqn:E1; [rewrite srmpot_pos_eq by (assumption || lia); destruct (e <? 5) eqn:E5|].
  - f_equal. rewrite g_double. rewrite Z2Nat.id by lia. reflexivity.
  - f_equal. cbv zeta. rewrite get_or by lia. unfold msa_slli. rewrite get_map1 by lia.
    assert (HP : 0 < 2 ^ (w - 1 - e)) by (apply Z.pow_pos_nonneg; lia).
    assert (HE : 2 ^ (w - 1) = 2 ^ (w - 1 - e) * 2 ^ e) by (rewrite <- Z.pow_add_r by lia; f_equal; lia).
    assert (He2 : 2 <= 2 ^ e) by (change 2 with (2 ^ 1) at 1; apply Z.pow_le_mono_r; lia).
    assert (Gr : g (msa_sat w x (w - 1 - e)) = saturate (w - e) (g x)).
    { unfold msa_sat. rewrite get_map1 by lia. replace (w - 1 - e + 1) with (w - e) by lia. apply wrapS_small; [lia|].
      unfold saturate, int_min, int_max. replace (w - e - 1) with (w - 1 - e) by lia. unfold fits in Fx. nia. }
    assert (Gt : g (msa_srli w (msa_clt w (msa_sat w x (w - 1 - e)) x) 1) = if saturate (w - e) (g x) <? g x then 2 ^ (w - 1) - 1 else 0).
    { unfold msa_srli. rewrite get_pack, getU_get by lia. unfold msa_clt. rewrite get_map2, Gr by lia. rewrite wrapS_ones by lia.
      destruct (saturate (w - e) (g x) <? g x); cbn [ones].
      - destruct W; subst w; vm_compute; reflexivity.
      - destruct W; subst w; vm_compute; reflexivity. }
    rewrite Gr, Gt, Z.shiftl_mul_pow2 by lia. unfold fits in Fx. unfold saturate, int_min, int_max.
    replace (w - e - 1) with (w - 1 - e) by lia. set (T := 2 ^ (w - 1 - e)) in *. set (y := g x) in *.
    unfold clamp_int, clampZ. destruct (Z_lt_le_dec y (- T)) as [A | A]; [|destruct (Z_lt_le_dec (T - 1) y) as [B | B]].
    + replace (Z.max (- T) (Z.min (T - 1) y)) with (- T) by lia. replace (- T <? y) with false by lia. rewrite Z.lor_0_r.
      replace (y * 2 ^ e <? - 2 ^ (w - 1)) with true by nia. rewrite wrapS_small by (try lia; unfold int_min, int_max; nia). nia.
    + replace (Z.max (- T) (Z.min (T - 1) y)) with (T - 1) by lia. replace (T - 1 <? y) with true by lia.
      replace (y * 2 ^ e <? - 2 ^ (w - 1)) with false by nia. replace (2 ^ (w - 1) - 1 <? y * 2 ^ e) with true by nia.
      rewrite wrapS_small by (try lia; unfold int_min, int_max; nia).
      replace ((T - 1) * 2 ^ e) with (2 ^ (w - 1) - 2 ^ e) by lia. symmetry. apply lor_top. lia.
    + replace (Z.max (- T) (Z.min (T - 1) y)) with y by lia. replace (y <? y) with false by lia. rewrite Z.lor_0_r.
      replace (y * 2 ^ e <? - 2 ^ (w - 1)) with false by nia. replace (2 ^ (w - 1) - 1 <? y * 2 ^ e) with false by nia.
      symmetry. apply wrapS_small; [lia|]. unfold int_min, int_max. nia.
  - rewrite srmpot_neg_eq by (assumption || lia). f_equal. cbv zeta. unfold msa_srari. rewrite get_map1 by lia.
    replace (- e =? 0) with false by lia. rewrite g_subs, g_sign, minus_sign, Z.shiftr_div_pow2 by lia. rewrite fixup_div by (assumption || lia).
    symmetry. apply wrapS_small; [lia|]. apply away_fits; [exact W|exact Fx|lia].
Qed.
End Lane.

Theorem msa_ok w i : w1632 w -> 0 <= i < lanes w -> ops_ok (simd Msa w) w i.
Proof.
  intros W Hi. pose proof (w1 w W) as H1.
  constructor; cbn [simd s_dup s_and s_or s_xor s_not s_add s_sub s_neg s_shl s_shr s_select s_eq s_ne s_zero s_nonzero s_gt s_ge s_lt s_le s_halfsum s_mul s_addsat16 s_divide s_pot].
  - exact (g_dup w i W Hi).
  - exact (g_sse_and w i W).
  - exact (g_sse_or w i W).
  - exact (g_sse_xor w i W).
  - exact (g_mnot w i W Hi).
  - exact (g_add w i W Hi).
  - exact (g_sub w i W Hi).
  - exact (g_mneg w i W Hi).
  - exact (g_mshl w i W Hi).
  - exact (g_mshr w i W Hi).
  - intros m t e _. exact (g_msel w i W m t e).
  - exact (g_eq w i W Hi).
  - exact (g_mne w i W Hi).
  - exact (g_mz w i W Hi).
  - exact (g_mnz w i W Hi).
  - exact (g_mgt w i W Hi).
  - exact (g_mge w i W Hi).
  - exact (g_lt w i W Hi).
  - exact (g_le w i W Hi).
  - exact (g_neon_half w i W Hi).
  - intros a b _. exact (g_mmul w i W Hi a b).
  - intros a b ->. exact (g_qadd 16 i W Hi a b).
  - intros x e He. eexists. split; [reflexivity|]. exact (g_mdiv w i W Hi x e He).
  - intros e x He H30. eexists. split; [reflexivity|]. exact (g_mpot w i W Hi e x He H30).
Qed.

(* ------------------------------------------------------------------ *)
(* WebAssembly: half sums and products *)
Lemma wrap_sign32 : wrapS 32 2147483648 = -2147483648. Proof. reflexivity. Qed.
Lemma w_half32 i a b : 0 <= i < 4 -> get 32 i (wasm_RoundingHalfSum32 a b) = (get 32 i a + get 32 i b + 1) / 2.
Proof.
  intros Hi. assert (W : w1632 32) by now right. assert (Hl : 0 <= i < lanes 32) by exact Hi.
  unfold wasm_RoundingHalfSum32. cbv zeta. unfold wasm_BitXor, wasm_BitAnd, wasm_ShiftRight, wasm_Add.
  rewrite get_xor, !get_and, !get_xor by lia. rewrite !(g_wshr 32 i W Hl) by lia. rewrite !(g_add 32 i W Hl). unfold wasm_Dup. rewrite !get_pack by lia.
  rewrite wrap_sign32, (wrapS_1 32 W).
  rewrite wrapS_add_l by lia. apply half32_core; apply get_range; lia.
Qed.
Lemma lxor_sign16 x : -32768 <= x <= 32767 -> Z.lxor x (-32768) = if x <? 0 then x + 32768 else x - 32768.
Proof.
  intros H. apply eq_bits. intros j Hj. rewrite Z.lxor_spec. destruct (Z_lt_le_dec j 15).
  - replace (Z.testbit (-32768) j) with false.
    + rewrite Bool.xorb_false_r. apply (bits_mod _ _ 15); [lia|]. change (2 ^ 15) with 32768.
      destruct (x <? 0); [rewrite <- (Z.mod_add x 1) by lia; f_equal; lia|rewrite <- (Z.mod_add x (-1)) by lia; f_equal; lia].
    + symmetry. change (-32768) with (Z.lnot (Z.ones 15)). rewrite Z.lnot_spec, Z.ones_spec_low by lia. reflexivity.
  - rewrite !(bits_small _ 16) by (try lia; unfold int_min, int_max; rewrite pows16; destruct (x <? 0) eqn:E; lia).
    destruct (x <? 0) eqn:E; cbn; lia.
Qed.
Lemma w_half16 i a b : 0 <= i < 8 -> get 16 i (wasm_RoundingHalfSum16 a b) = (get 16 i a + get 16 i b + 1) / 2.
Proof.
  intros Hi. assert (Hl : 0 <= i < lanes 16) by exact Hi.
  unfold wasm_RoundingHalfSum16, wasm_Dup. cbv zeta. rewrite get_xor, !get_pack, !getU_get, !get_xor, !get_pack by lia.
  change (wrapS 16 (-32768)) with (-32768).
  pose proof (get_range 16 i a ltac:(lia)) as Ra. pose proof (get_range 16 i b ltac:(lia)) as Rb.
  unfold int_min, int_max in *. rewrite pows16 in *. set (x := get 16 i a) in *. set (y := get 16 i b) in *.
  assert (U : forall z, -32768 <= z <= 32767 -> wrapU 16 (Z.lxor z (-32768)) = z + 32768).
  { intros z Hz. rewrite lxor_sign16 by lia. unfold wrapU. change (2 ^ 16) with 65536. destruct (z <? 0) eqn:E; [apply Z.mod_small; lia|].
    symmetry. apply (Z.mod_unique _ _ (-1)); lia. }
  rewrite !U by lia. rewrite Z.shiftr_div_pow2 by lia. change (2 ^ 1) with 2.
  replace (x + 32768 + (y + 32768) + 1) with ((x + y + 1) + 32768 * 2) by lia. rewrite Z.div_add by lia.
  set (h := (x + y + 1) / 2). assert (Hh : -32768 <= h <= 32767) by (unfold h; lia).
  assert (E : wrapS 16 (h + 32768) = if h <? 0 then h + 32768 else h - 32768).
  { destruct (h <? 0) eqn:E; [apply wrapS_small; [lia|]; unfold int_min, int_max; rewrite pows16; lia|].
    rewrite <- (wrapS_small 16 (h - 32768)); [|lia|unfold int_min, int_max; rewrite pows16; lia].
    apply wrapS_eq_mod; [lia|]. rewrite <- (Z.mod_add (h - 32768) 1) by (change (2 ^ 16) with 65536; lia). f_equal. change (2 ^ 16) with 65536. lia. }
  rewrite E. clear E. destruct (h <? 0) eqn:S; rewrite lxor_sign16 by lia.
  - replace (h + 32768 <? 0) with false by lia. lia.
  - replace (h - 32768 <? 0) with true by lia. lia.
Qed.
(* two 32-bit lanes holding a value and its sign are that value in 64 bits *)
Lemma ext_lane k v x : 0 <= k < 2 -> int_min 32 <= x <= int_max 32 -> get 32 (2 * k) v = x -> get 32 (2 * k + 1) v = Z.shiftr x 31 -> get 64 k v = x.
Proof.
  intros Hk Hx Lo Hi. apply eq_bits. intros j Hj. rewrite <- (wrapS_get 64 k v) by lia. rewrite bits_wrapS by lia.
  assert (J : Z.testbit (get 64 k v) (Z.min j (64 - 1)) = Z.testbit x (Z.min j 63)).
  { rewrite get_bits by lia. replace (64 - 1) with 63 by lia. set (p := Z.min j 63). assert (0 <= p <= 63) by lia. destruct (Z_lt_le_dec p 32).
    - rewrite <- Lo. rewrite get_bits by lia. f_equal. lia.
    - transitivity (Z.testbit (Z.shiftr x 31) (p - 32)).
      + rewrite <- Hi. rewrite get_bits by lia. f_equal. lia.
      + rewrite Z.shiftr_spec by lia. rewrite !(bits_small x 32) by lia. reflexivity. }
  rewrite J. destruct (Z_lt_le_dec j 63); [f_equal; lia|]. rewrite !(bits_small x 32) by lia. reflexivity.
Qed.
Lemma shuffle_lane i a b c0 c1 c2 c3 : 0 <= i < 4 ->
  get 32 i (wasm_v32x4_shuffle a b c0 c1 c2 c3) = let c := pick4 i c0 c1 c2 c3 in if c <? 4 then get 32 c a else get 32 (c - 4) b.
Proof.
  intros Hi. unfold wasm_v32x4_shuffle. rewrite get_pack by (try lia; exact Hi). cbv zeta.
  destruct (pick4 i c0 c1 c2 c3 <? 4); apply wrapS_small; try lia; apply get_range; lia.
Qed.
Lemma w_ext i a c0 c1 c2 c3 k : 0 <= k < 2 -> 0 <= i < 4 -> pick4 (2 * k) c0 c1 c2 c3 = i -> pick4 (2 * k + 1) c0 c1 c2 c3 = i + 4 ->
  get 64 k (wasm_v32x4_shuffle a (wasm_shr 32 a 31) c0 c1 c2 c3) = get 32 i a.
Proof.
  intros Hk Hi P0 P1. apply ext_lane; [exact Hk|apply get_range; lia| |]; rewrite shuffle_lane by lia; cbv zeta.
  - rewrite P0. replace (i <? 4) with true by lia. reflexivity.
  - rewrite P1. replace (i + 4 <? 4) with false by lia. replace (i + 4 - 4) with i by lia. apply g_wshr; [now right|exact Hi|lia].
Qed.
Lemma w_prod k a b n x y : 0 <= k < 2 -> n = 2147483648 -> get 64 k a = x -> get 64 k b = y ->
  get 32 (2 * k + 1) (wasm_Add 64 (wasm_Add 64 (wasm_Mul 64 a b) (wasm_Mul 64 a b)) (wasm_Dup 64 n)) = wrapS 32 ((x * y + 1073741824) / 2147483648).
Proof.
  intros Hk -> <- <-. assert (Hl : 0 <= k < lanes 64) by exact Hk. rewrite hi_lane by lia. unfold wasm_Add, wasm_Mul, wasm_Dup.
  rewrite !get_map2, get_pack by lia. rewrite hi_wrap. set (p := get 64 k a * get 64 k b).
  assert (E : wrapS 32 ((wrapS 64 (wrapS 64 p + wrapS 64 p) + wrapS 64 2147483648) / 2 ^ 32) = wrapS 32 ((2 * p + 2147483648) / 2 ^ 32)).
  { rewrite <- (hi_wrap (_ + _)), <- (hi_wrap (2 * p + _)). f_equal. f_equal. rewrite wrapS_add_l, wrapS_add_r by lia.
    replace (wrapS 64 p + wrapS 64 p + 2147483648) with (wrapS 64 p + (wrapS 64 p + 2147483648)) by lia. rewrite wrapS_add_l by lia.
    replace (p + (wrapS 64 p + 2147483648)) with (wrapS 64 p + (p + 2147483648)) by lia. rewrite wrapS_add_l by lia. f_equal. lia. }
  rewrite E. f_equal. change (2 ^ 32) with (2 * 2147483648). replace (2 * p + 2147483648) with (2 * (p + 1073741824)) by lia.
  rewrite Z.div_mul_cancel_l by lia. reflexivity.
Qed.
Lemma w_fix i p : 0 <= i < 4 -> get 32 i (Z.lxor p (wasm_MaskIfEqual 32 p (wasm_Dup 32 2147483648))) = Z.lxor (get 32 i p) (ones (get 32 i p =? -2147483648)).
Proof.
  intros Hi. assert (Hl : 0 <= i < lanes 32) by exact Hi. unfold wasm_MaskIfEqual, wasm_Dup. rewrite get_xor, get_map2, get_pack by lia.
  rewrite wrap_sign32. now rewrite wrapS_ones by lia.
Qed.
Lemma w_raw32 i a b : 0 <= i < 4 ->
  get 32 i (wasm_SaturatingRoundingDoublingHighMul32 a b) =
  let p := wrapS 32 ((get 32 i a * get 32 i b + 1073741824) / 2147483648) in Z.lxor p (ones (p =? -2147483648)).
Proof.
  intros Hi. assert (Hl : 0 <= i < lanes 32) by exact Hi. unfold wasm_SaturatingRoundingDoublingHighMul32. cbv zeta.
  rewrite w_fix by exact Hi.
  match goal with |- Z.lxor (get 32 i ?P) _ = _ => assert (M : get 32 i P = wrapS 32 ((get 32 i a * get 32 i b + 1073741824) / 2147483648)) end.
  { rewrite shuffle_lane by lia. cbv zeta. destruct (four i Hi) as [-> | [-> | [-> | ->]]];
      (match goal with |- context [pick4 ?k 1 3 5 7] => let c := eval vm_compute in (pick4 k 1 3 5 7) in change (pick4 k 1 3 5 7) with c end).
    - change (1 <? 4) with true. cbn iota. apply (w_prod 0); [lia|reflexivity| |]; apply w_ext; lia || reflexivity.
    - change (3 <? 4) with true. cbn iota. apply (w_prod 1); [lia|reflexivity| |]; apply w_ext; lia || reflexivity.
    - change (5 <? 4) with false. cbn iota. apply (w_prod 0); [lia|reflexivity| |]; apply w_ext; lia || reflexivity.
    - change (7 <? 4) with false. cbn iota. apply (w_prod 1); [lia|reflexivity| |]; apply w_ext; lia || reflexivity. }
  rewrite M. reflexivity.
Qed.
Lemma w_mul32 i a b : 0 <= i < 4 ->
  get 32 i (wasm_SaturatingRoundingDoublingHighMul32 a b) = SaturatingRoundingDoublingHighMul 32 (get 32 i a) (get 32 i b).
Proof.
  intros Hi. assert (W : w1632 32) by now right. rewrite w_raw32 by lia. cbv zeta.
  set (x := get 32 i a). set (y := get 32 i b).
  pose proof (srdhm_fits 32 x y W (get_fits 32 i a ltac:(lia)) (get_fits 32 i b ltac:(lia))) as F.
  pose proof (get_range 32 i a ltac:(lia)) as Ra. pose proof (get_range 32 i b ltac:(lia)) as Rb. fold x in Ra. fold y in Rb.
  rewrite (srdhm_eq 32 x y W) in * by (apply get_fits; lia). rewrite int_min32 in *.
  change (2 ^ (32 - 2)) with 1073741824 in *. change (2 ^ (32 - 1)) with 2147483648 in *.
  destruct ((x =? -2147483648) && (y =? -2147483648)) eqn:E.
  - assert (x = -2147483648) as -> by lia. assert (y = -2147483648) as -> by lia. reflexivity.
  - apply (proj1 (fits_int _ _)) in F. rewrite wrapS_small by (lia || exact F).
    replace ((x * y + 1073741824) / 2147483648 =? -2147483648) with false; [apply Z.lxor_0_r|].
    symmetry. apply Z.eqb_neq. intros Q. change (int_max 32) with 2147483647 in *.
    assert (x * y + 1073741824 < -2147483648 * 2147483648 + 2147483648) by lia.
    assert (- (2147483648 * 2147483647) <= x * y); [|lia].
    destruct (Z.eq_dec x (-2147483648)) as [-> |]; destruct (Z.eq_dec y (-2147483648)) as [-> |]; nia.
Qed.
Lemma w_mul16_lane i j a b (f : reg -> reg) : 0 <= i < 8 -> 0 <= j < 4 -> (forall v, get 32 j (f v) = get 16 i v) ->
  get 32 j (wasm_shr 32 (wasm_Add 32 (wasm_Mul 32 (f a) (f b)) (wasm_Dup 32 16384)) 15) = (get 16 i a * get 16 i b + 16384) / 32768.
Proof.
  intros Hi Hj Hf. assert (W : w1632 32) by now right. assert (Hl : 0 <= j < lanes 32) by exact Hj.
  rewrite (g_wshr 32 j W Hl) by lia. unfold wasm_Add, wasm_Mul. rewrite (g_add 32 j W Hl), (g_mul 32 j W Hl). unfold wasm_Dup. rewrite get_pack by lia.
  rewrite !Hf. pose proof (get_range 16 i a ltac:(lia)) as Ra. pose proof (get_range 16 i b ltac:(lia)) as Rb.
  change (int_min 16) with (-32768) in *. change (int_max 16) with 32767 in *. change (wrapS 32 16384) with 16384.
  assert (B : -1073741824 <= get 16 i a * get 16 i b <= 1073741824) by nia.
  rewrite (wrapS_small 32 (get 16 i a * get 16 i b)) by (change (int_min 32) with (-2147483648); change (int_max 32) with 2147483647; lia).
  rewrite wrapS_small by (change (int_min 32) with (-2147483648); change (int_max 32) with 2147483647; lia).
  now rewrite Z.shiftr_div_pow2 by lia.
Qed.
Lemma w_mul16 i a b : 0 <= i < 8 ->
  get 16 i (wasm_SaturatingRoundingDoublingHighMul16 a b) = SaturatingRoundingDoublingHighMul 16 (get 16 i a) (get 16 i b).
Proof.
  intros Hi. assert (W : w1632 16) by now left. assert (Hl : 0 <= i < lanes 16) by exact Hi.
  unfold wasm_SaturatingRoundingDoublingHighMul16. cbv zeta. unfold wasm_narrow. rewrite get_pack by lia.
  rewrite wrapS_small by (try apply saturate_fits; lia).
  set (x := get 16 i a). set (y := get 16 i b).
  match goal with |- saturate 16 ?V = _ => assert (E : V = (x * y + 16384) / 32768) end.
  { destruct (i <? 4) eqn:I.
    - apply w_mul16_lane; [lia|lia|]. intros v. unfold wasm_widen_low. rewrite get_pack by (change (lanes 32) with 4; lia).
      apply wrapS_small; [lia|]. pose proof (get_range 16 i v ltac:(lia)) as R. unfold int_min, int_max in *. cbn in *. lia.
    - apply w_mul16_lane; [lia|lia|]. intros v. unfold wasm_widen_high. rewrite get_pack by (change (lanes 32) with 4; lia).
      replace (4 + (i - 4)) with i by lia.
      apply wrapS_small; [lia|]. pose proof (get_range 16 i v ltac:(lia)) as R. unfold int_min, int_max in *. cbn in *. lia. }
  rewrite E. pose proof (srdhm_fits 16 x y W (get_fits 16 i a ltac:(lia)) (get_fits 16 i b ltac:(lia))) as F.
  rewrite (srdhm_eq 16 x y W) in * by (apply get_fits; lia). rewrite int_min16 in *.
  change (2 ^ (16 - 2)) with 16384 in *. change (2 ^ (16 - 1)) with 32768 in *.
  destruct ((x =? -32768) && (y =? -32768)) eqn:M.
  - assert (x = -32768) as -> by lia. assert (y = -32768) as -> by lia. reflexivity.
  - apply (proj1 (fits_int _ _)) in F. unfold saturate. revert F. generalize ((x * y + 16384) / 32768). intros v F. lia.
Qed.

Theorem wasm_ok w i : w1632 w -> 0 <= i < lanes w -> ops_ok (simd Wasm w) w i.
Proof.
  intros W Hi. pose proof (w1 w W) as H1.
  constructor; cbn [simd s_dup s_and s_or s_xor s_not s_add s_sub s_neg s_shl s_shr s_select s_eq s_ne s_zero s_nonzero s_gt s_ge s_lt s_le s_halfsum s_mul s_addsat16 s_divide s_pot].
  - exact (g_dup w i W Hi).
  - exact (g_sse_and w i W).
  - exact (g_sse_or w i W).
  - exact (g_sse_xor w i W).
  - exact (g_wnot w i W Hi).
  - exact (g_add w i W Hi).
  - exact (g_sub w i W Hi).
  - exact (g_neon_neg w i W Hi).
  - exact (g_wshl w i W Hi).
  - exact (g_wshr w i W Hi).
  - intros m t e _. exact (g_wsel w i W m t e).
  - exact (g_eq w i W Hi).
  - exact (g_wne w i W Hi).
  - exact (g_wz w i W Hi).
  - exact (g_wnz w i W Hi).
  - exact (g_gt w i W Hi).
  - exact (g_ge w i W Hi).
  - exact (g_lt w i W Hi).
  - exact (g_le w i W Hi).
  - intros a b. destruct W as [-> | ->]; [exact (w_half16 i a b Hi)|exact (w_half32 i a b Hi)].
  - intros a b _. destruct W as [-> | ->]; [exact (w_mul16 i a b Hi)|exact (w_mul32 i a b Hi)].
  - intros a b ->. exact (g_qadd 16 i W Hi a b).
  - intros x e He. apply q_rdpot; try assumption; cbn [wasm_pot q_dup q_and q_add q_shl q_shr q_lt q_gt q_select].
    + exact (g_dup w i W Hi).
    + exact (g_sse_and w i W).
    + exact (g_add w i W Hi).
    + exact (g_wshl w i W Hi).
    + exact (g_wshr w i W Hi).
    + exact (g_lt w i W Hi).
    + exact (g_gt w i W Hi).
    + intros m t s _. exact (g_wsel w i W m t s).
  - intros e x He H30. apply q_srm; try assumption; cbn [wasm_pot q_dup q_and q_add q_shl q_shr q_lt q_gt q_select].
    + exact (g_dup w i W Hi).
    + exact (g_sse_and w i W).
    + exact (g_add w i W Hi).
    + exact (g_wshl w i W Hi).
    + exact (g_wshr w i W Hi).
    + exact (g_lt w i W Hi).
    + exact (g_gt w i W Hi).
    + intros m t s _. exact (g_wsel w i W m t s).
Qed.
