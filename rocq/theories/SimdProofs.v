(* SimdProofs.v: lanes of registers *)
From Verif Require Import Base BaseLemmas FixedPointModel FixedPointSpec FixedPointProofs SimdModel.

(* ------------------------------------------------------------------ *)
(* bits of a two's complement value *)
Lemma pow_split w : 1 <= w -> 2 ^ w = 2 * 2 ^ (w - 1).
Proof. intros H. rewrite <- Z.pow_succ_r by lia. f_equal; lia. Qed.
Lemma bits_mod a b w j : 0 <= j < w -> a mod 2 ^ w = b mod 2 ^ w -> Z.testbit a j = Z.testbit b j.
Proof. intros Hj H. rewrite <- (Z.mod_pow2_bits_low a w j), <- (Z.mod_pow2_bits_low b w j) by lia. now rewrite H. Qed.
Lemma bits_small v w j : 1 <= w -> w - 1 <= j -> int_min w <= v <= int_max w -> Z.testbit v j = (v <? 0).
Proof.
  intros Hw Hj Hv. unfold int_min, int_max in Hv.
  assert (E : Z.shiftr v (w - 1) = if v <? 0 then -1 else 0).
  { rewrite Z.shiftr_div_pow2 by lia. assert (0 < 2 ^ (w - 1)) by (apply Z.pow_pos_nonneg; lia).
    destruct (v <? 0) eqn:E.
    - symmetry. apply (Z.div_unique v (2 ^ (w - 1)) (-1) (v + 2 ^ (w - 1))); lia.
    - apply Z.div_small. lia. }
  replace j with ((j - (w - 1)) + (w - 1)) by lia.
  rewrite <- Z.shiftr_spec by lia. rewrite E. destruct (v <? 0); [apply Z.bits_m1; lia|apply Z.testbit_0_l].
Qed.
Lemma bits_wrapS w z j : 1 <= w -> 0 <= j -> Z.testbit (wrapS w z) j = Z.testbit z (Z.min j (w - 1)).
Proof.
  intros Hw Hj. destruct (Z_lt_le_dec j w) as [L | L].
  - rewrite Z.min_l by lia. apply (bits_mod _ _ w); [lia|]. now apply wrapS_mod.
  - rewrite Z.min_r by lia.
    rewrite (bits_small _ w j), <- (bits_small _ w (w - 1)) by (try lia; now apply wrapS_range).
    apply (bits_mod _ _ w); [lia|]. now apply wrapS_mod.
Qed.
Lemma eq_bits a b : (forall j, 0 <= j -> Z.testbit a j = Z.testbit b j) -> a = b.
Proof. intros H. apply Z.bits_inj'. exact H. Qed.
Lemma wrapS_land w a b : 1 <= w -> wrapS w (Z.land a b) = Z.land (wrapS w a) (wrapS w b).
Proof. intros Hw. apply eq_bits. intros j Hj. now rewrite Z.land_spec, !bits_wrapS, Z.land_spec. Qed.
Lemma wrapS_lor w a b : 1 <= w -> wrapS w (Z.lor a b) = Z.lor (wrapS w a) (wrapS w b).
Proof. intros Hw. apply eq_bits. intros j Hj. now rewrite Z.lor_spec, !bits_wrapS, Z.lor_spec. Qed.
Lemma wrapS_lxor w a b : 1 <= w -> wrapS w (Z.lxor a b) = Z.lxor (wrapS w a) (wrapS w b).
Proof. intros Hw. apply eq_bits. intros j Hj. now rewrite Z.lxor_spec, !bits_wrapS, Z.lxor_spec. Qed.
Lemma wrapS_ldiff w a b : 1 <= w -> wrapS w (Z.ldiff a b) = Z.ldiff (wrapS w a) (wrapS w b).
Proof. intros Hw. apply eq_bits. intros j Hj. now rewrite Z.ldiff_spec, !bits_wrapS, Z.ldiff_spec. Qed.
Lemma wrapS_wrapU w z : 1 <= w -> wrapS w (wrapU w z) = wrapS w z.
Proof. intros Hw. apply wrapS_eq_mod; [lia|]. unfold wrapU. apply Z.mod_mod. assert (0 < 2 ^ w) by (apply Z.pow_pos_nonneg; lia). lia. Qed.
Lemma bits_wrapU w z j : 0 <= j < w -> Z.testbit (wrapU w z) j = Z.testbit z j.
Proof. intros H. unfold wrapU. apply Z.mod_pow2_bits_low. lia. Qed.

(* ------------------------------------------------------------------ *)
(* lanes *)
Lemma get_range w i v : 1 <= w -> int_min w <= get w i v <= int_max w.
Proof. intros H. now apply wrapS_range. Qed.
Lemma get_fits w i v : 1 <= w -> fits w (get w i v).
Proof. intros H. apply fits_int. now apply get_range. Qed.
Lemma get_and w i a b : 1 <= w -> get w i (Z.land a b) = Z.land (get w i a) (get w i b).
Proof. intros H. unfold get. rewrite Z.shiftr_land. now apply wrapS_land. Qed.
Lemma get_or w i a b : 1 <= w -> get w i (Z.lor a b) = Z.lor (get w i a) (get w i b).
Proof. intros H. unfold get. rewrite Z.shiftr_lor. now apply wrapS_lor. Qed.
Lemma get_xor w i a b : 1 <= w -> get w i (Z.lxor a b) = Z.lxor (get w i a) (get w i b).
Proof. intros H. unfold get. rewrite Z.shiftr_lxor. now apply wrapS_lxor. Qed.
Lemma get_diff w i a b : 1 <= w -> get w i (Z.ldiff a b) = Z.ldiff (get w i a) (get w i b).
Proof. intros H. unfold get. rewrite Z.shiftr_ldiff. now apply wrapS_ldiff. Qed.
Lemma getU_get w i v : 1 <= w -> getU w i v = wrapU w (get w i v).
Proof. intros H. unfold getU, get, wrapU. symmetry. now apply wrapS_mod. Qed.

Lemma pack_n_range w f n : 1 <= w -> 0 <= pack_n w f n < 2 ^ (w * Z.of_nat n).
Proof.
  intros Hw. induction n as [|n IH]; [cbn; rewrite Z.mul_0_r; cbn; lia|].
  cbn [pack_n]. replace (w * Z.of_nat (S n)) with (w + w * Z.of_nat n) by lia.
  rewrite Z.pow_add_r by lia.
  assert (0 < 2 ^ w) by (apply Z.pow_pos_nonneg; lia).
  pose proof (Z.mod_pos_bound (f (Z.of_nat n)) (2 ^ w) H). fold (wrapU w (f (Z.of_nat n))) in H0.
  generalize dependent (wrapU w (f (Z.of_nat n))). intros u Hu.
  generalize dependent (2 ^ w). generalize dependent (2 ^ (w * Z.of_nat n)). intros. nia.
Qed.
Lemma pack_n_bits w f n i j : 1 <= w -> 0 <= i < Z.of_nat n -> 0 <= j < w ->
  Z.testbit (pack_n w f n) (w * i + j) = Z.testbit (f i) j.
Proof.
  intros Hw. induction n as [|n IH]; intros Hi Hj; [lia|]. cbn [pack_n].
  pose proof (pack_n_range w f n Hw) as R. set (P := pack_n w f n) in *. set (k := w * Z.of_nat n) in *.
  assert (0 < 2 ^ k) by (apply Z.pow_pos_nonneg; lia).
  destruct (Z.eq_dec i (Z.of_nat n)) as [-> | N].
  - replace (w * Z.of_nat n + j) with (j + k) by lia. rewrite <- Z.shiftr_spec by lia.
    rewrite Z.shiftr_div_pow2 by lia.
    rewrite Z.div_add, Z.div_small by lia. rewrite Z.add_0_l. apply bits_wrapU. lia.
  - rewrite <- (IH ltac:(lia) Hj). apply (bits_mod _ _ k); [nia|]. apply Z.mod_add. lia.
Qed.
Lemma lanes_pos w : 1 <= w <= 128 -> 1 <= lanes w.
Proof. intros H. unfold lanes. apply Z.div_le_lower_bound; lia. Qed.
Lemma pack_bits w f i j : 1 <= w -> 0 <= i < lanes w -> 0 <= j < w ->
  Z.testbit (pack w f) (w * i + j) = Z.testbit (f i) j.
Proof. intros. unfold pack. apply pack_n_bits; lia. Qed.
Lemma get_bits w i v j : 1 <= w -> 0 <= i -> 0 <= j < w -> Z.testbit (get w i v) j = Z.testbit v (w * i + j).
Proof.
  intros. unfold get. rewrite bits_wrapS by lia. rewrite Z.min_l by lia. rewrite Z.shiftr_spec by lia. f_equal. lia.
Qed.
Lemma wrapS_ext w a b : 1 <= w -> (forall j, 0 <= j < w -> Z.testbit a j = Z.testbit b j) -> wrapS w a = wrapS w b.
Proof. intros Hw H. apply eq_bits. intros j Hj. rewrite !bits_wrapS by lia. apply H. lia. Qed.
Lemma wrapS_get w i v : 1 <= w -> wrapS w (get w i v) = get w i v.
Proof. intros. unfold get. now apply wrapS_idem. Qed.
Lemma get_ext w i v z : 1 <= w -> 0 <= i -> (forall j, 0 <= j < w -> Z.testbit v (w * i + j) = Z.testbit z j) ->
  get w i v = wrapS w z.
Proof.
  intros Hw Hi H. rewrite <- wrapS_get by lia. apply wrapS_ext; [lia|]. intros j Hj. rewrite get_bits by lia. now apply H.
Qed.
Lemma get_pack w f i : 1 <= w -> 0 <= i < lanes w -> get w i (pack w f) = wrapS w (f i).
Proof. intros Hw Hi. apply get_ext; [lia|lia|]. intros j Hj. now apply pack_bits. Qed.
Lemma get_map1 w f a i : 1 <= w -> 0 <= i < lanes w -> get w i (map1 w f a) = wrapS w (f (get w i a)).
Proof. intros. unfold map1. now rewrite get_pack. Qed.
Lemma get_map2 w f a b i : 1 <= w -> 0 <= i < lanes w -> get w i (map2 w f a b) = wrapS w (f (get w i a) (get w i b)).
Proof. intros. unfold map2. now rewrite get_pack. Qed.
Lemma pack_range w f : w = 16 \/ w = 32 \/ w = 64 -> 0 <= pack w f < 2 ^ 128.
Proof.
  intros H. unfold pack. pose proof (pack_n_range w f (Z.to_nat (lanes w)) ltac:(lia)) as R.
  replace (w * Z.of_nat (Z.to_nat (lanes w))) with 128 in R; [exact R|].
  destruct H as [-> | [-> | ->]]; reflexivity.
Qed.
Lemma wrapS_ones w b : 1 <= w -> wrapS w (ones b) = ones b.
Proof.
  intros H. apply wrapS_small; [lia|]. unfold ones, int_min, int_max.
  assert (0 < 2 ^ (w - 1)) by (apply Z.pow_pos_nonneg; lia). destruct b; lia.
Qed.
Lemma saturate_clamp w x : 1 <= w -> saturate w x = clamp_int w x.
Proof.
  intros H. assert (0 < 2 ^ (w - 1)) by (apply Z.pow_pos_nonneg; lia).
  unfold saturate, clamp_int, clampZ, int_min, int_max. destruct (x <? - 2 ^ (w - 1)) eqn:E1; destruct (2 ^ (w - 1) - 1 <? x) eqn:E2; lia.
Qed.
Lemma saturate_fits w x : 1 <= w -> int_min w <= saturate w x <= int_max w.
Proof. intros H. unfold saturate, int_min, int_max. assert (0 < 2 ^ (w - 1)) by (apply Z.pow_pos_nonneg; lia). lia. Qed.
