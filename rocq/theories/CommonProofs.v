From Verif Require Import Base BaseLemmas CommonModel.

Lemma RoundDown_spec m i : 0 < m -> exists k, RoundDown m i = k * m /\ RoundDown m i <= i < RoundDown m i + m.
Proof.
  intros Hm. exists (i / m). unfold RoundDown.
  pose proof (Z.mod_pos_bound i m Hm). pose proof (Z.div_mod i m ltac:(lia)). lia.
Qed.

Lemma RoundUp_spec m i : 0 < m -> exists k, RoundUp m i = k * m /\ i <= RoundUp m i < i + m.
Proof.
  intros Hm. unfold RoundUp. destruct (RoundDown_spec m (i + m - 1) Hm) as [k [E H]].
  exists k. lia.
Qed.
Lemma RoundUp_div m i : 0 < m -> (m | RoundUp m i).
Proof. intros Hm. destruct (RoundUp_spec m i Hm) as [k [E _]]. exists k. exact E. Qed.
Lemma RoundUp_ge m i : 0 < m -> i <= RoundUp m i < i + m.
Proof. intros Hm. destruct (RoundUp_spec m i Hm) as [k [_ H]]. exact H. Qed.
Lemma RoundDown_div m i : 0 < m -> (m | RoundDown m i).
Proof. intros Hm. destruct (RoundDown_spec m i Hm) as [k [E _]]. exists k. exact E. Qed.
Lemma RoundDown_le m i : 0 < m -> RoundDown m i <= i < RoundDown m i + m.
Proof. intros Hm. destruct (RoundDown_spec m i Hm) as [k [_ H]]. exact H. Qed.

(* the least multiple above *)
Lemma RoundUp_least m i k : 0 < m -> i <= k * m -> RoundUp m i <= k * m.
Proof.
  intros Hm H. destruct (RoundUp_spec m i Hm) as [q [E B]]. rewrite E in B |- *.
  destruct (Z.le_gt_cases q k); nia.
Qed.
Lemma RoundUp_le_mult m i x : 0 < m -> (m | x) -> i <= x -> RoundUp m i <= x.
Proof. intros Hm [k ->] H. apply RoundUp_least; assumption. Qed.
Lemma RoundUp_mult m i : 0 < m -> (m | i) -> RoundUp m i = i.
Proof.
  intros Hm H. pose proof (RoundUp_le_mult m i i Hm H ltac:(lia)).
  pose proof (RoundUp_ge m i Hm). lia.
Qed.
Lemma RoundDown_greatest m i k : 0 < m -> k * m <= i -> k * m <= RoundDown m i.
Proof.
  intros Hm H. destruct (RoundDown_spec m i Hm) as [q [E B]]. rewrite E in B |- *.
  destruct (Z.le_gt_cases k q); nia.
Qed.

Lemma CeilQuotient_spec a b : 0 <= a -> 0 < b ->
  (CeilQuotient a b - 1) * b < a <= CeilQuotient a b * b.
Proof.
  intros Ha Hb. unfold CeilQuotient. rewrite Z.quot_div_nonneg by lia.
  pose proof (Z.div_mod (a + b - 1) b ltac:(lia)). pose proof (Z.mod_pos_bound (a + b - 1) b Hb). nia.
Qed.
Lemma CeilQuotient_pos a b : 0 < a -> 0 < b -> 1 <= CeilQuotient a b <= a.
Proof.
  intros Ha Hb. pose proof (CeilQuotient_spec a b ltac:(lia) Hb). nia.
Qed.

Lemma RoundDown32_eq m i : 0 < m -> 0 <= i < 2 ^ 31 -> RoundDown32 m i = RoundDown m i.
Proof.
  intros Hm Hi. unfold RoundDown32, RoundDown, wrapU.
  rewrite (Z.mod_small i (2 ^ 32)) by lia.
  pose proof (Z.mod_pos_bound i m Hm). pose proof (Z.mod_le i m ltac:(lia) Hm).
  rewrite Z.mod_small by lia. apply wrapS_small; [lia|]. unfold int_min, int_max. cbn. lia.
Qed.
Lemma RoundUp32_eq m i : 0 < m -> 0 <= i -> i + m - 1 < 2 ^ 31 -> RoundUp32 m i = RoundUp m i.
Proof.
  intros Hm Hi Hb. unfold RoundUp, RoundUp32. rewrite <- RoundDown32_eq by lia. reflexivity.
Qed.

(* ---- RoundUpToPowerOfTwo ---- *)
Definition smear (i s : Z) : Z := Z.lor i (Z.shiftr i s).
Definition has_bit_in (x n k : Z) : Prop := exists j, 0 <= j < k /\ Z.testbit x (n + j) = true.
Lemma smear_bits x y s : 0 < s ->
  (forall n, 0 <= n -> (Z.testbit y n = true <-> has_bit_in x n s)) ->
  forall n, 0 <= n -> (Z.testbit (smear y s) n = true <-> has_bit_in x n (2 * s)).
Proof.
  intros Hs H n Hn. unfold smear. rewrite Z.lor_spec, Z.shiftr_spec by lia.
  rewrite orb_true_iff, (H n Hn), (H (n + s)) by lia. unfold has_bit_in. split.
  - intros [[j [Hj E]]|[j [Hj E]]]; [exists j|exists (s + j)]; (split; [lia|]).
    + exact E.
    + replace (n + (s + j)) with (n + s + j) by lia. exact E.
  - intros [j [Hj E]]. destruct (Z.lt_ge_cases j s).
    + left. exists j. split; [lia|exact E].
    + right. exists (j - s). split; [lia|]. replace (n + s + (j - s)) with (n + j) by lia. exact E.
Qed.

Lemma smear32_ones x : 0 < x < 2 ^ 32 ->
  smear (smear (smear (smear (smear x 1) 2) 4) 8) 16 = Z.ones (Z.log2 x + 1).
Proof.
  intros Hx.
  assert (H0 : forall n, 0 <= n -> (Z.testbit x n = true <-> has_bit_in x n 1)).
  { intros n Hn. unfold has_bit_in. split.
    - intros E. exists 0. split; [lia|]. rewrite Z.add_0_r. exact E.
    - intros [j [Hj E]]. replace j with 0 in E by lia. rewrite Z.add_0_r in E. exact E. }
  pose proof (smear_bits x _ 1 ltac:(lia) H0) as H1.
  pose proof (smear_bits x _ 2 ltac:(lia) H1) as H2.
  pose proof (smear_bits x _ 4 ltac:(lia) H2) as H3.
  pose proof (smear_bits x _ 8 ltac:(lia) H3) as H4.
  pose proof (smear_bits x _ 16 ltac:(lia) H4) as H5.
  pose proof (Z.log2_nonneg x) as Hl.
  assert (Hl32 : Z.log2 x < 32) by (apply Z.log2_lt_pow2; lia).
  apply Z.bits_inj'. intros n Hn.
  rewrite Z.testbit_ones by lia.
  destruct (Z.lt_ge_cases n (Z.log2 x + 1)) as [Hlt|Hge].
  - replace ((0 <=? n) && (n <? Z.log2 x + 1)) with true by lia.
    apply H5; [lia|]. exists (Z.log2 x - n). split; [lia|].
    replace (n + (Z.log2 x - n)) with (Z.log2 x) by lia. apply Z.bit_log2. lia.
  - replace ((0 <=? n) && (n <? Z.log2 x + 1)) with false by lia.
    apply not_true_is_false. intros E. apply H5 in E; [|lia].
    destruct E as [j [Hj E]].
    rewrite Z.bits_above_log2 in E by lia. discriminate.
Qed.

(* smallest power of two not below n, for n up to 2^32, whatever the width *)
Lemma RoundUpToPowerOfTwo_spec w n : 33 <= w -> 1 <= n <= 2 ^ 32 ->
  exists k, 0 <= k /\ RoundUpToPowerOfTwo w n = 2 ^ k /\ n <= 2 ^ k /\
    (forall j, 0 <= j -> n <= 2 ^ j -> 2 ^ k <= 2 ^ j).
Proof.
  intros Hw Hn.
  assert (Hww : 2 ^ 33 <= 2 ^ w) by (apply Z.pow_le_mono_r; lia).
  assert (E33 : 2 ^ 33 = 2 * 2 ^ 32) by reflexivity.
  change (RoundUpToPowerOfTwo w n) with
    ((smear (smear (smear (smear (smear ((n - 1) mod 2 ^ w) 1) 2) 4) 8) 16 + 1) mod 2 ^ w).
  rewrite (Z.mod_small (n - 1)) by lia.
  destruct (Z.eq_dec n 1) as [->|Hn1].
  - exists 0. split; [lia|]. split.
    + change (smear (smear (smear (smear (smear (1 - 1) 1) 2) 4) 8) 16) with 0. change (2 ^ 0) with 1.
      apply Z.mod_small. cbn. lia.
    + change (2 ^ 0) with 1. split; [lia|]. intros j Hj _.
      pose proof (Z.pow_pos_nonneg 2 j). lia.
  - rewrite smear32_ones by lia.
    pose proof (Z.log2_nonneg (n - 1)) as Hl.
    assert (Hl32 : Z.log2 (n - 1) < 32) by (apply Z.log2_lt_pow2; lia).
    pose proof (Z.log2_spec (n - 1) ltac:(lia)) as [L1 L2].
    exists (Z.log2 (n - 1) + 1). split; [lia|].
    unfold Z.succ in L2.
    assert (Hp : 2 ^ (Z.log2 (n - 1) + 1) <= 2 ^ 32) by (apply Z.pow_le_mono_r; lia).
    split.
    + rewrite Z.ones_equiv. replace (Z.pred (2 ^ (Z.log2 (n - 1) + 1)) + 1) with (2 ^ (Z.log2 (n - 1) + 1)) by lia.
      apply Z.mod_small. pose proof (Z.pow_pos_nonneg 2 (Z.log2 (n-1) + 1)). lia.
    + split; [lia|]. intros j Hj H.
      apply Z.pow_le_mono_r; [lia|].
      assert (2 ^ Z.log2 (n - 1) < 2 ^ j) by lia.
      assert (Z.log2 (n - 1) < j) by (apply (Z.pow_lt_mono_r_iff 2); lia).
      lia.
Qed.

(* ---- cell layouts ---- *)
Definition off (f : side_fmt) (w d : Z) : Z :=
  match sf_order f with
  | CDepthMajor => w + d * sf_cw f
  | CWidthMajor => d + w * sf_cd f
  | CDiagonal => ((sf_cw f + w - d) * sf_cw f + d) mod (sf_cw f * sf_cw f)
  end.

Lemma OffsetIntoCell_off f w d : side_fmt_ok f -> OffsetIntoCell f w d = Some (off f w d).
Proof.
  intros (Hw & Hd & Hc & Hdiag). unfold OffsetIntoCell, off.
  destruct (sf_order f); try reflexivity.
  rewrite Hdiag by reflexivity. unfold guard. rewrite Z.eqb_refl. reflexivity.
Qed.

Lemma diag_off n w d : 0 < n -> 0 <= w < n -> 0 <= d < n ->
  ((n + w - d) * n + d) mod (n * n) = ((w - d) mod n) * n + d.
Proof.
  intros Hn Hw Hd.
  destruct (Z.le_gt_cases d w).
  - replace ((w - d) mod n) with (w - d) by (rewrite Z.mod_small; lia).
    replace ((n + w - d) * n + d) with ((w - d) * n + d + 1 * (n * n)) by ring.
    rewrite Z_mod_plus_full. apply Z.mod_small. nia.
  - replace ((w - d) mod n) with (n + w - d).
    + apply Z.mod_small. nia.
    + rewrite <- (Z_mod_plus_full (w - d) 1 n). rewrite Z.mod_small; lia.
Qed.

Lemma off_range f w d : side_fmt_ok f -> 0 <= w < sf_cw f -> 0 <= d < sf_cd f ->
  0 <= off f w d < sf_cw f * sf_cd f.
Proof.
  intros (Hw & Hd & Hc & Hdiag) Hw1 Hd1. unfold off.
  destruct (sf_order f) eqn:E.
  - nia.
  - nia.
  - rewrite <- (Hdiag eq_refl) in *. rewrite diag_off by lia.
    pose proof (Z.mod_pos_bound (w - d) (sf_cw f) Hw). nia.
Qed.

Lemma divmod_unique a b n x y : 0 < n -> 0 <= x < n -> 0 <= y < n -> a * n + x = b * n + y -> a = b /\ x = y.
Proof. intros. assert (a = b) by nia. subst. lia. Qed.

Lemma off_inj f w d w' d' : side_fmt_ok f -> 0 <= w < sf_cw f -> 0 <= d < sf_cd f ->
  0 <= w' < sf_cw f -> 0 <= d' < sf_cd f -> off f w d = off f w' d' -> w = w' /\ d = d'.
Proof.
  intros (Hw & Hd & Hc & Hdiag) Hw1 Hd1 Hw2 Hd2. unfold off.
  destruct (sf_order f) eqn:E; intros H.
  - destruct (divmod_unique d d' (sf_cw f) w w'); lia.
  - destruct (divmod_unique w w' (sf_cd f) d d'); lia.
  - rewrite <- (Hdiag eq_refl) in *. rewrite !diag_off in H by lia.
    destruct (divmod_unique ((w - d) mod sf_cw f) ((w' - d') mod sf_cw f) (sf_cw f) d d') as [A B]; try lia.
    subst d'. split; [|reflexivity].
    set (n := sf_cw f) in *. clearbody n.
    destruct (Z.le_gt_cases d w), (Z.le_gt_cases d w').
    + rewrite !Z.mod_small in A by lia. lia.
    + exfalso. rewrite (Z.mod_small (w - d)) in A by lia.
      rewrite <- (Z_mod_plus_full (w' - d) 1 n), Z.mod_small in A by lia. lia.
    + exfalso. rewrite (Z.mod_small (w' - d)) in A by lia.
      rewrite <- (Z_mod_plus_full (w - d) 1 n), Z.mod_small in A by lia. lia.
    + rewrite <- (Z_mod_plus_full (w - d) 1 n), <- (Z_mod_plus_full (w' - d) 1 n), !Z.mod_small in A by lia. lia.
Qed.

Lemma off_surj f i : side_fmt_ok f -> 0 <= i < sf_cw f * sf_cd f ->
  exists w d, 0 <= w < sf_cw f /\ 0 <= d < sf_cd f /\ off f w d = i.
Proof.
  intros (Hw & Hd & Hc & Hdiag) Hi. unfold off.
  destruct (sf_order f) eqn:E.
  - exists (i mod sf_cw f), (i / sf_cw f).
    pose proof (Z.mod_pos_bound i (sf_cw f) Hw). pose proof (Z.div_mod i (sf_cw f) ltac:(lia)).
    split; [lia|]. split; [|lia]. split; [apply Z.div_pos; lia|apply Z.div_lt_upper_bound; lia].
  - exists (i / sf_cd f), (i mod sf_cd f).
    pose proof (Z.mod_pos_bound i (sf_cd f) Hd). pose proof (Z.div_mod i (sf_cd f) ltac:(lia)).
    split; [|lia]. split; [apply Z.div_pos; lia|apply Z.div_lt_upper_bound; lia].
  - rewrite <- (Hdiag eq_refl) in *. set (n := sf_cw f) in *.
    pose proof (Z.mod_pos_bound i n Hw) as Hm. pose proof (Z.div_mod i n ltac:(lia)) as Hdm.
    assert (Hq : 0 <= i / n < n) by (split; [apply Z.div_pos; lia|apply Z.div_lt_upper_bound; lia]).
    exists ((i / n + i mod n) mod n), (i mod n).
    split; [apply Z.mod_pos_bound; lia|]. split; [lia|].
    rewrite diag_off by (try lia; apply Z.mod_pos_bound; lia).
    rewrite Zminus_mod_idemp_l. replace (i / n + i mod n - i mod n) with (i / n) by lia.
    rewrite (Z.mod_small (i / n)) by lia. lia.
Qed.

Lemma cell_layout_bijection f : side_fmt_ok f ->
  (forall w d, 0 <= w < sf_cw f -> 0 <= d < sf_cd f ->
     exists i, OffsetIntoCell f w d = Some i /\ 0 <= i < sf_cw f * sf_cd f) /\
  (forall w d w' d' i, 0 <= w < sf_cw f -> 0 <= d < sf_cd f -> 0 <= w' < sf_cw f -> 0 <= d' < sf_cd f ->
     OffsetIntoCell f w d = Some i -> OffsetIntoCell f w' d' = Some i -> w = w' /\ d = d') /\
  (forall i, 0 <= i < sf_cw f * sf_cd f ->
     exists w d, 0 <= w < sf_cw f /\ 0 <= d < sf_cd f /\ OffsetIntoCell f w d = Some i).
Proof.
  intros Hf. split; [|split].
  - intros w d Hw Hd. exists (off f w d). split; [apply OffsetIntoCell_off, Hf|apply off_range; assumption].
  - intros w d w' d' i Hw Hd Hw' Hd' E1 E2. rewrite OffsetIntoCell_off in E1, E2 by exact Hf.
    apply (off_inj f); try assumption. congruence.
  - intros i Hi. destruct (off_surj f i Hf Hi) as (w & d & Hw & Hd & E).
    exists w, d. split; [exact Hw|]. split; [exact Hd|]. rewrite OffsetIntoCell_off by exact Hf. congruence.
Qed.

(* ---- block parameters ---- *)
Definition bp_ok (k : kernel_fmt) (depth : Z) (bp : block_params) : Prop :=
  0 < bp_l2_rows bp /\ 0 < bp_l2_cols bp /\ 0 < bp_l2_depth bp /\
  0 < bp_l1_rows bp /\ 0 < bp_l1_cols bp /\ 0 < bp_l1_depth bp /\
  (kRows k | bp_l2_rows bp) /\ (kCols k | bp_l2_cols bp) /\
  (kRows k | bp_l1_rows bp) /\ (kCols k | bp_l1_cols bp) /\
  (kf_reg k | bp_l1_depth bp) /\
  bp_l2_depth bp = RoundUp (kf_reg k) depth /\
  bp_l1_rows bp <= bp_l2_rows bp /\ bp_l1_cols bp = bp_l2_cols bp /\ bp_l1_depth bp <= bp_l2_depth bp.

Lemma kRows_pos k : kernel_fmt_ok k -> 0 < kRows k.
Proof. intros ((?&?&?&_)&_). unfold kRows. nia. Qed.
Lemma kCols_pos k : kernel_fmt_ok k -> 0 < kCols k.
Proof. intros (_&(?&?&?&_)&_). unfold kCols. nia. Qed.

Lemma BlockParams_Init_ok k rows cols depth nt t x :
  kernel_fmt_ok k -> 0 < rows -> 0 < cols -> 0 < depth -> 0 < nt ->
  rf_mul (t_factor t) (Z.quot (t_l2_bytes t) (RoundUp (kf_reg k) depth)) = Some x ->
  exists bp, BlockParams_Init k rows cols depth nt t = Some bp /\ bp_ok k depth bp.
Proof.
  intros Hk Hr Hc Hd Hnt Hx.
  pose proof (kRows_pos k Hk) as HkR. pose proof (kCols_pos k Hk) as HkC.
  destruct Hk as (Hl & Hrr & Hcd & Hreg & Hdiv).
  unfold BlockParams_Init, FindL2BlockSizes.
  pose proof (RoundUp_ge (kf_reg k) depth Hreg) as HD.
  pose proof (RoundUp_div (kf_reg k) depth Hreg) as HDd.
  unfold cdiv. replace (nt =? 0) with false by lia. cbn [bind].
  replace (RoundUp (kf_reg k) depth =? 0) with false by lia. cbn [bind].
  rewrite Hx. cbn [bind].
  set (ptr := Z.max 1 (Z.quot (RoundUp (kRows k) rows) nt)).
  set (mc := Z.max 1 x). set (nb := Z.max 1 (CeilQuotient cols mc)).
  set (l2c := RoundUp (kCols k) (CeilQuotient cols nb)).
  set (l2d := RoundUp (kf_reg k) depth) in *.
  assert (Hl2c : 0 < l2c /\ (kCols k | l2c)).
  { pose proof (CeilQuotient_pos cols nb Hc ltac:(lia)).
    pose proof (RoundUp_ge (kCols k) (CeilQuotient cols nb) HkC).
    pose proof (RoundUp_div (kCols k) (CeilQuotient cols nb) HkC). subst l2c. split; [lia|assumption]. }
  assert (G : forall l2r, 0 < l2r -> (kRows k | l2r) ->
    exists bp, (let* (l1_rows, l1_cols, l1_depth) := FindL1BlockSizes k l2r l2c l2d (t_l1_bytes t) in
      Some {| bp_l1_rows := l1_rows; bp_l1_cols := l1_cols; bp_l1_depth := l1_depth;
          bp_l2_rows := l2r; bp_l2_cols := l2c; bp_l2_depth := l2d |}) = Some bp /\ bp_ok k depth bp).
  { intros l2r Hl2r Hl2rd. unfold FindL1BlockSizes, guard.
    replace (l2r mod kRows k =? 0) with true
      by (symmetry; apply Z.eqb_eq, Z.mod_divide; [lia|assumption]).
    replace (l2c mod kCols k =? 0) with true
      by (symmetry; apply Z.eqb_eq, Z.mod_divide; [lia|apply Hl2c]).
    assert (HkD : 0 < kDepth k) by (unfold kDepth; destruct Hl as (_&?&_); lia).
    replace (l2d mod kDepth k =? 0) with true
      by (symmetry; apply Z.eqb_eq, Z.mod_divide; [lia|eapply Z.divide_trans; [exact Hdiv|exact HDd]]).
    cbn [bind]. unfold cdiv. replace (kRows k + kCols k =? 0) with false by lia. cbn [bind].
    set (q := Z.max 1 (Z.quot _ _)). set (nb1 := Z.max 1 (CeilQuotient l2d q)).
    pose proof (CeilQuotient_pos l2d nb1 ltac:(lia) ltac:(lia)) as Hq1.
    pose proof (RoundUp_ge (kf_reg k) (CeilQuotient l2d nb1) Hreg) as Hq2.
    pose proof (RoundUp_div (kf_reg k) (CeilQuotient l2d nb1) Hreg) as Hq3.
    pose proof (RoundUp_le_mult (kf_reg k) (CeilQuotient l2d nb1) l2d Hreg HDd ltac:(lia)) as Hq4.
    set (l1d := RoundUp (kf_reg k) (CeilQuotient l2d nb1)) in *.
    replace (l1d + 4 * l2c =? 0) with false by lia. cbn [bind].
    set (q2 := Z.max 1 (Z.quot (t_l1_bytes t) _)). set (nb2 := Z.max 1 (CeilQuotient l2r q2)).
    pose proof (CeilQuotient_pos l2r nb2 ltac:(lia) ltac:(lia)) as Hs1.
    pose proof (RoundUp_ge (kRows k) (CeilQuotient l2r nb2) HkR) as Hs2.
    pose proof (RoundUp_div (kRows k) (CeilQuotient l2r nb2) HkR) as Hs3.
    pose proof (RoundUp_le_mult (kRows k) (CeilQuotient l2r nb2) l2r HkR Hl2rd ltac:(lia)) as Hs4.
    eexists. split; [reflexivity|]. unfold bp_ok. cbn.
    repeat (split; [first [lia|tauto|assumption]|]). lia. }
  assert (Hptr : 0 < ptr) by (subst ptr; lia).
  destruct (rf_is_one (t_factor t)).
  - cbn [bind]. apply G.
    + pose proof (RoundUp_ge (kRows k) ptr HkR). lia.
    + apply RoundUp_div; lia.
  - replace (nt * (l2d + 4 * l2c) =? 0) with false by nia. cbn [bind]. apply G.
    + set (nb3 := Z.max 1 (CeilQuotient ptr _)).
      pose proof (CeilQuotient_pos ptr nb3 Hptr ltac:(lia)).
      pose proof (RoundUp_ge (kRows k) (CeilQuotient ptr nb3) HkR). lia.
    + apply RoundUp_div; lia.
Qed.

Lemma BlockParams_Init_inv k rows cols depth nt t bp :
  kernel_fmt_ok k -> 0 < rows -> 0 < cols -> 0 < depth -> 0 < nt ->
  BlockParams_Init k rows cols depth nt t = Some bp -> bp_ok k depth bp.
Proof.
  intros Hk Hr Hc Hd Hnt E.
  destruct (rf_mul (t_factor t) (Z.quot (t_l2_bytes t) (RoundUp (kf_reg k) depth))) as [x|] eqn:Ex.
  - destruct (BlockParams_Init_ok k rows cols depth nt t x Hk Hr Hc Hd Hnt Ex) as (bp' & E' & H).
    rewrite E in E'. injection E' as <-. exact H.
  - exfalso. unfold BlockParams_Init, FindL2BlockSizes in E.
    assert (Hreg : 0 < kf_reg k) by (destruct Hk as (_&_&_&?&_); assumption).
    pose proof (RoundUp_ge (kf_reg k) depth Hreg).
    unfold cdiv in E. replace (nt =? 0) with false in E by lia. cbn [bind] in E.
    replace (RoundUp (kf_reg k) depth =? 0) with false in E by lia. cbn [bind] in E.
    rewrite Ex in E. discriminate.
Qed.

Lemma block_params_full k rows cols depth nt t x :
  kernel_fmt_ok k -> 0 < rows -> 0 < cols -> 0 < depth -> 0 < nt ->
  rf_mul (t_factor t) (Z.quot (t_l2_bytes t) (RoundUp (kf_reg k) depth)) = Some x ->
  exists bp, BlockParams_Init k rows cols depth nt t = Some bp /\
    (0 < bp_l2_rows bp /\ 0 < bp_l2_cols bp /\ 0 < bp_l2_depth bp) /\
    (0 < bp_l1_rows bp <= bp_l2_rows bp /\ 0 < bp_l1_cols bp <= bp_l2_cols bp /\
     0 < bp_l1_depth bp <= bp_l2_depth bp) /\
    ((kRows k | bp_l2_rows bp) /\ (kRows k | bp_l1_rows bp) /\
     (kCols k | bp_l2_cols bp) /\ (kCols k | bp_l1_cols bp) /\
     (kf_reg k | bp_l2_depth bp) /\ (kf_reg k | bp_l1_depth bp)) /\
    depth <= bp_l2_depth bp < depth + kf_reg k.
Proof.
  intros Hk Hr Hc Hd Hnt Ex.
  destruct (BlockParams_Init_ok k rows cols depth nt t x Hk Hr Hc Hd Hnt Ex) as (bp & E & H).
  exists bp. split; [exact E|]. destruct H as (H1&H2&H3&H4&H5&H6&D1&D2&D3&D4&D5&H7&H8&H9&H10).
  assert (Hreg : 0 < kf_reg k) by (destruct Hk as (_&_&_&?&_); assumption).
  pose proof (RoundUp_ge (kf_reg k) depth Hreg) as B.
  pose proof (RoundUp_div (kf_reg k) depth Hreg) as B2. rewrite <- H7 in B, B2.
  repeat split; try assumption; lia.
Qed.

Lemma size_rounding_full m i : 0 < m -> 0 <= i -> i + m - 1 < 2 ^ 31 ->
  ((m | RoundDown32 m i) /\ RoundDown32 m i <= i /\
   forall x, (m | x) -> x <= i -> x <= RoundDown32 m i) /\
  ((m | RoundUp32 m i) /\ i <= RoundUp32 m i /\
   forall x, (m | x) -> i <= x -> RoundUp32 m i <= x).
Proof.
  intros Hm Hi Hb. rewrite RoundDown32_eq, RoundUp32_eq by lia.
  pose proof (RoundDown_le m i Hm). pose proof (RoundUp_ge m i Hm).
  split; (split; [apply RoundDown_div||apply RoundUp_div; assumption|split; [lia|]]).
  - intros x [k ->] Hx. apply RoundDown_greatest; assumption.
  - intros x Hx Hle. apply RoundUp_le_mult; assumption.
Qed.

Lemma CeilQuotient_full a b : 0 <= a -> 0 < b ->
  a <= CeilQuotient a b * b /\ forall q, a <= q * b -> CeilQuotient a b <= q.
Proof.
  intros Ha Hb. pose proof (CeilQuotient_spec a b Ha Hb) as H. split; [lia|].
  intros q Hq. assert ((CeilQuotient a b - 1) * b < q * b) by lia.
  assert (CeilQuotient a b - 1 < q) by (apply (Z.mul_lt_mono_pos_r b); lia). lia.
Qed.
Lemma pow2_64_refuted : exists n, 0 < n < 2 ^ 64 /\
  forall k, 0 <= k -> RoundUpToPowerOfTwo 64 n <> 2 ^ k.
Proof.
  exists (2 ^ 32 + 1). split; [lia|]. intros k Hk E.
  change (RoundUpToPowerOfTwo 64 (2 ^ 32 + 1)) with 8589934591 in E.
  destruct (Z.eq_dec k 0) as [->|Hk0]; [discriminate|].
  replace k with (Z.succ (k - 1)) in E by lia. rewrite Z.pow_succ_r in E by lia. lia.
Qed.
Lemma rounddown_negative_refuted : exists m i, 0 < m /\ - 2 ^ 31 <= i < 0 /\ ~ (m | RoundDown32 m i).
Proof.
  exists 3, (-1). split; [lia|]. split; [lia|]. change (RoundDown32 3 (-1)) with (-1).
  intros [k Hk]. lia.
Qed.
