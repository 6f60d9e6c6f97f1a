From Verif Require Import Base BaseLemmas CommonModel CommonProofs PackModel PackSpec PackProofs PackProofs2 PackProofs3 GemmSpec.

Lemma mm_addr_entry M r c : mm_addr M r c = entry_addr M r c.
Proof. unfold mm_addr, entry_addr, mm_rows_stride, mm_cols_stride. destruct (mm_order M); ring. Qed.

Lemma sp_ok_lhs k depth bp : kernel_fmt_ok k -> bp_ok k depth bp ->
  sp_ok (kf_lhs k) (kf_reg k) (GetSideBlockParams Lhs bp).
Proof.
  intros Hk (H1&H2&H3&H4&H5&H6&D1&D2&D3&D4&D5&H7&H8&H9&H10).
  assert (Hreg : 0 < kf_reg k) by (destruct Hk as (_&_&_&?&_); assumption).
  pose proof (RoundUp_div (kf_reg k) depth Hreg) as B2. rewrite <- H7 in B2.
  unfold sp_ok, GetSideBlockParams, sf_width. cbn. unfold kRows in *. rewrite (Z.mul_comm (sf_cells _)).
  repeat split; assumption.
Qed.
Lemma sp_ok_rhs k depth bp : kernel_fmt_ok k -> bp_ok k depth bp ->
  sp_ok (kf_rhs k) (kf_reg k) (GetSideBlockParams Rhs bp).
Proof.
  intros Hk (H1&H2&H3&H4&H5&H6&D1&D2&D3&D4&D5&H7&H8&H9&H10).
  assert (Hreg : 0 < kf_reg k) by (destruct Hk as (_&_&_&?&_); assumption).
  pose proof (RoundUp_div (kf_reg k) depth Hreg) as B2. rewrite <- H7 in B2.
  unfold sp_ok, GetSideBlockParams, sf_width. cbn. unfold kCols in *. rewrite (Z.mul_comm (sf_cells _)).
  repeat split; assumption.
Qed.

Lemma interp_byte f v : in_min f - sf_zp f <= v <= in_min f + 255 - sf_zp f -> operand_value (sf_signed f) (byte v) = v.
Proof.
  intros Hv. unfold operand_value, byte, sf_zp, in_min, sf_signed in *. destruct (sf_kind f).
  - unfold wrapU. change (2 ^ 8) with 256. apply Z.mod_small. lia.
  - unfold wrapS, wrapU. change (2 ^ 8) with 256. change (2 ^ (8 - 1)) with 128.
    rewrite Z.add_mod_idemp_l by lia. rewrite Z.mod_small by lia. lia.
  - unfold wrapS, wrapU. change (2 ^ 8) with 256. change (2 ^ (8 - 1)) with 128.
    rewrite Z.add_mod_idemp_l by lia. rewrite Z.mod_small by lia. lia.
Qed.

(* the packed value at (w,d): source minus zero point, or 0 outside *)
Definition pval (f : side_fmt) (g : Z -> Z -> Z) (width depth w d : Z) : Z :=
  if (0 <=? w) && (w <? width) && (0 <=? d) && (d <? depth) then g w d - sf_zp f else 0.

Lemma PackL2_pval pk m f kreg junk p src g b :
  side_fmt_ok f -> 0 < kreg -> (sf_cd f | kreg) -> sp_ok f kreg p -> pack_correct m f kreg (pk m f kreg) ->
  m = Wrap \/ 255 * sp_l2_depth p <= int_max 32 ->
  (sf_kind f = FInt8Inputs -> sm_order src = SWidthMajor) ->
  0 < sm_width src <= sp_l2_width p -> 0 < sm_depth src <= sp_l2_depth p ->
  (forall w d, 0 <= w < sm_width src -> 0 <= d < sm_depth src ->
     sm_get src w d = Some (g w d) /\ in_min f <= g w d <= in_min f + 255) ->
  byte_buffer (pk_data b) (sp_l2_width p * sp_l2_depth p) -> allocated (pk_sums b) (sp_l2_width p) ->
  exists b', PackL2 pk m f kreg junk p src b = Some b' /\
    byte_buffer (pk_data b') (sp_l2_width p * sp_l2_depth p) /\
    (forall w d, 0 <= w < RoundUp (sf_width f) (sm_width src) -> 0 <= d < RoundUp kreg (sm_depth src) ->
       pk_data b' (packed_pos f p w d) = Some (byte (pval f g (sm_width src) (sm_depth src) w d))) /\
    (forall w, 0 <= w < sp_l2_width p ->
       pk_sums b' w = Some (wrapS 32 (sumZ (pval f g (sm_width src) (sm_depth src) w) 0 (sm_depth src)))).
Proof.
  intros Hf Hreg Hcd Hp Hpk Hm Hord Hw Hd Hg HD HS.
  pose proof (zp_cases f) as Hz.
  apply PackL2_spec; try assumption.
  - intros w d. unfold pval.
    destruct ((0 <=? w) && (w <? sm_width src) && (0 <=? d) && (d <? sm_depth src)) eqn:E; [|lia].
    destruct (Hg w d) as [_ B]; lia.
  - intros w d Hw1 Hd1. destruct (Hg w d Hw1 Hd1) as [-> B]. unfold pval.
    replace ((0 <=? w) && (w <? sm_width src) && (0 <=? d) && (d <? sm_depth src)) with true by lia.
    f_equal. lia.
  - intros w d H. unfold pval.
    replace ((0 <=? w) && (w <? sm_width src) && (0 <=? d) && (d <? sm_depth src)) with false by lia.
    reflexivity.
Qed.

Section Sides.
Variables (pk : packer) (m : ovf) (k : kernel_fmt) (depth : Z) (bp : block_params) (junk : Z -> Z).
Hypothesis Hk : kernel_fmt_ok k.
Hypothesis Hbp : bp_ok k depth bp.
Hypothesis Hdepth : 0 < depth.
Hypothesis Hm : m = Wrap \/ 255 * bp_l2_depth bp <= int_max 32.

Lemma depth_le_l2 : depth <= bp_l2_depth bp.
Proof.
  destruct Hbp as (_&_&_&_&_&_&_&_&_&_&_&H7&_).
  destruct Hk as (_&_&_&Hreg&_). pose proof (RoundUp_ge (kf_reg k) depth Hreg). lia.
Qed.

Lemma PackLhs_spec input M L b :
  pack_correct m (kf_lhs k) (kf_reg k) (pk m (kf_lhs k) (kf_reg k)) ->
  0 < mm_rows M <= bp_l2_rows bp -> mm_cols M = depth -> holds_lhs (kf_lhs k) input M L ->
  byte_buffer (pk_data b) (bp_l2_rows bp * bp_l2_depth bp) -> allocated (pk_sums b) (bp_l2_rows bp) ->
  exists b', PackLhs pk m (kf_lhs k) (kf_reg k) junk (GetSideBlockParams Lhs bp) input M b = Some b' /\
    byte_buffer (pk_data b') (bp_l2_rows bp * bp_l2_depth bp) /\
    (forall w d, 0 <= w < RoundUp (kRows k) (mm_rows M) -> 0 <= d < bp_l2_depth bp ->
       pk_data b' (packed_pos (kf_lhs k) (GetSideBlockParams Lhs bp) w d)
       = Some (byte (pval (kf_lhs k) L (mm_rows M) depth w d))) /\
    (forall w, 0 <= w < bp_l2_rows bp ->
       pk_sums b' w = Some (wrapS 32 (sumZ (pval (kf_lhs k) L (mm_rows M) depth w) 0 depth))).
Proof.
  intros Hpk Hr Hc [HL HLo] HD HS. pose proof depth_le_l2.
  pose proof Hk as (K1&K2&K3&K4&K5).
  destruct (PackL2_pval pk m (kf_lhs k) (kf_reg k) junk (GetSideBlockParams Lhs bp) (lhs_side_map input M) L b)
    as (b' & E & B1 & B2 & B3); try assumption.
  - eapply sp_ok_lhs; eassumption.
  - cbn. intros Ek. rewrite (HLo Ek). reflexivity.
  - cbn. rewrite Hc. lia.
  - cbn. intros w d Hw Hd. destruct (HL w d) as [E B]; [lia..|]. split; [|exact B].
    rewrite <- E. unfold sm_get, rd. cbn. f_equal.
    unfold sm_addr, entry_addr, sm_width_stride, sm_depth_stride. cbn. destruct (mm_order M); cbn; ring.
  - exists b'. split; [exact E|]. split; [exact B1|]. cbn in B2, B3. rewrite Hc in B2, B3.
    split; [|exact B3]. intros w d Hw Hd. apply B2.
    + unfold kRows in Hw. unfold sf_width. rewrite Z.mul_comm. exact Hw.
    + destruct Hbp as (_&_&_&_&_&_&_&_&_&_&_&H7&_). rewrite <- H7. exact Hd.
Qed.

Lemma PackRhs_spec input M R b :
  pack_correct m (kf_rhs k) (kf_reg k) (pk m (kf_rhs k) (kf_reg k)) ->
  0 < mm_cols M <= bp_l2_cols bp -> mm_rows M = depth -> holds_rhs (kf_rhs k) input M R ->
  byte_buffer (pk_data b) (bp_l2_cols bp * bp_l2_depth bp) -> allocated (pk_sums b) (bp_l2_cols bp) ->
  exists b', PackRhs pk m (kf_rhs k) (kf_reg k) junk (GetSideBlockParams Rhs bp) input M b = Some b' /\
    byte_buffer (pk_data b') (bp_l2_cols bp * bp_l2_depth bp) /\
    (forall w d, 0 <= w < RoundUp (kCols k) (mm_cols M) -> 0 <= d < bp_l2_depth bp ->
       pk_data b' (packed_pos (kf_rhs k) (GetSideBlockParams Rhs bp) w d)
       = Some (byte (pval (kf_rhs k) (fun w d => R d w) (mm_cols M) depth w d))) /\
    (forall w, 0 <= w < bp_l2_cols bp ->
       pk_sums b' w = Some (wrapS 32 (sumZ (pval (kf_rhs k) (fun w d => R d w) (mm_cols M) depth w) 0 depth))).
Proof.
  intros Hpk Hc Hr [HR HRo] HD HS. pose proof depth_le_l2.
  pose proof Hk as (K1&K2&K3&K4&K5).
  destruct (PackL2_pval pk m (kf_rhs k) (kf_reg k) junk (GetSideBlockParams Rhs bp) (rhs_side_map input M)
     (fun w d => R d w) b) as (b' & E & B1 & B2 & B3); try assumption.
  - rewrite <- K3. exact K5.
  - eapply sp_ok_rhs; eassumption.
  - cbn. intros Ek. rewrite (HRo Ek). reflexivity.
  - cbn. rewrite Hr. lia.
  - cbn. intros w d Hw Hd. destruct (HR d w) as [E B]; [lia..|]. split; [|exact B].
    rewrite <- E. unfold sm_get, rd. cbn. f_equal.
    unfold sm_addr, entry_addr, sm_width_stride, sm_depth_stride. cbn. destruct (mm_order M); cbn; ring.
  - exists b'. split; [exact E|]. split; [exact B1|]. cbn in B2, B3. rewrite Hr in B2, B3.
    split; [|exact B3]. intros w d Hw Hd. apply B2.
    + unfold kCols in Hw. unfold sf_width. rewrite Z.mul_comm. exact Hw.
    + destruct Hbp as (_&_&_&_&_&_&_&_&_&_&_&H7&_). rewrite <- H7. exact Hd.
Qed.
End Sides.

Lemma pval_range f g width depth w d :
  (forall w d, 0 <= w < width -> 0 <= d < depth -> in_min f <= g w d <= in_min f + 255) ->
  in_min f - sf_zp f <= pval f g width depth w d <= in_min f + 255 - sf_zp f.
Proof.
  intros Hg. pose proof (zp_cases f) as Hz.
  unfold pval. destruct ((0 <=? w) && (w <? width) && (0 <=? d) && (d <? depth)) eqn:E; [|lia].
  specialize (Hg w d). lia.
Qed.

Lemma pack_lhs_full k rows cols depth nt t bp :
  kernel_fmt_ok k -> 0 < rows -> 0 < cols -> 0 < depth -> 0 < nt ->
  BlockParams_Init k rows cols depth nt t = Some bp ->
  exists loc : Z -> Z -> Z,
    (forall w d, 0 <= w < bp_l2_rows bp -> 0 <= d < bp_l2_depth bp ->
       0 <= loc w d < bp_l2_rows bp * bp_l2_depth bp) /\
    (forall w d w' d', 0 <= w < bp_l2_rows bp -> 0 <= d < bp_l2_depth bp ->
       0 <= w' < bp_l2_rows bp -> 0 <= d' < bp_l2_depth bp -> loc w d = loc w' d' -> w = w' /\ d = d') /\
    forall pk m junk input M L b,
      pack_correct m (kf_lhs k) (kf_reg k) (pk m (kf_lhs k) (kf_reg k)) ->
      m = Wrap \/ 255 * bp_l2_depth bp <= 2 ^ 31 - 1 ->
      0 < mm_rows M <= bp_l2_rows bp -> mm_cols M = depth -> holds_lhs (kf_lhs k) input M L ->
      byte_buffer (pk_data b) (bp_l2_rows bp * bp_l2_depth bp) -> allocated (pk_sums b) (bp_l2_rows bp) ->
      exists b', PackLhs pk m (kf_lhs k) (kf_reg k) junk (GetSideBlockParams Lhs bp) input M b = Some b' /\
        (forall w d, 0 <= w < RoundUp (kRows k) (mm_rows M) -> 0 <= d < bp_l2_depth bp ->
           exists x, pk_data b' (loc w d) = Some x /\
             operand_value (sf_signed (kf_lhs k)) x =
             if (w <? mm_rows M) && (d <? depth) then L w d - sf_zp (kf_lhs k) else 0) /\
        (forall w, 0 <= w < bp_l2_rows bp ->
           pk_sums b' w = Some (if w <? mm_rows M
             then wrapS 32 (sumZ (fun d => L w d - sf_zp (kf_lhs k)) 0 depth) else 0)).
Proof.
  intros Hk Hr Hc Hd Hnt E. pose proof (BlockParams_Init_inv _ _ _ _ _ _ _ Hk Hr Hc Hd Hnt E) as Hbp.
  pose proof (sp_ok_lhs k depth bp Hk Hbp) as Hsp. pose proof Hk as (K1&K2&K3&K4&K5).
  exists (packed_pos (kf_lhs k) (GetSideBlockParams Lhs bp)). split; [|split].
  - intros w d Hw Hd1. apply (packed_pos_range (kf_lhs k) (kf_reg k) (GetSideBlockParams Lhs bp)); assumption.
  - intros w d w' d' Hw Hd1 Hw' Hd' Heq.
    exact (packed_pos_inj (kf_lhs k) (kf_reg k) (GetSideBlockParams Lhs bp) K1 K5 Hsp w d w' d' Hw Hd1 Hw' Hd' Heq).
  - intros pk m junk input M L b Hpk Hm HMr HMc HL HD HS.
    destruct (PackLhs_spec pk m k depth bp junk Hk Hbp Hd Hm input M L b) as (b' & Eb & B1 & B2 & B3); try assumption.
    exists b'. split; [exact Eb|]. split.
    + intros w d Hw Hd1. exists (byte (pval (kf_lhs k) L (mm_rows M) depth w d)).
      split; [apply B2; assumption|]. rewrite interp_byte.
      * unfold pval. replace (0 <=? w) with true by lia. replace (0 <=? d) with true by lia.
        cbn [andb]. rewrite andb_true_r. reflexivity.
      * apply pval_range. intros w1 d1 Hw1 Hd2. apply (proj1 HL); [assumption|]. rewrite HMc. assumption.
    + intros w Hw. rewrite B3 by assumption. f_equal.
      destruct (Z.ltb_spec w (mm_rows M)) as [Hlt|Hge].
      * f_equal. apply sumZ_ext. intros d Hd1. unfold pval.
        replace ((0 <=? w) && (w <? mm_rows M) && (0 <=? d) && (d <? depth)) with true by lia. reflexivity.
      * rewrite sumZ_zero; [reflexivity|]. intros d Hd1. unfold pval.
        replace ((0 <=? w) && (w <? mm_rows M) && (0 <=? d) && (d <? depth)) with false by lia. reflexivity.
Qed.

Lemma pack_rhs_full k rows cols depth nt t bp :
  kernel_fmt_ok k -> 0 < rows -> 0 < cols -> 0 < depth -> 0 < nt ->
  BlockParams_Init k rows cols depth nt t = Some bp ->
  exists loc : Z -> Z -> Z,
    (forall w d, 0 <= w < bp_l2_cols bp -> 0 <= d < bp_l2_depth bp ->
       0 <= loc w d < bp_l2_cols bp * bp_l2_depth bp) /\
    (forall w d w' d', 0 <= w < bp_l2_cols bp -> 0 <= d < bp_l2_depth bp ->
       0 <= w' < bp_l2_cols bp -> 0 <= d' < bp_l2_depth bp -> loc w d = loc w' d' -> w = w' /\ d = d') /\
    forall pk m junk input M R b,
      pack_correct m (kf_rhs k) (kf_reg k) (pk m (kf_rhs k) (kf_reg k)) ->
      m = Wrap \/ 255 * bp_l2_depth bp <= 2 ^ 31 - 1 ->
      0 < mm_cols M <= bp_l2_cols bp -> mm_rows M = depth -> holds_rhs (kf_rhs k) input M R ->
      byte_buffer (pk_data b) (bp_l2_cols bp * bp_l2_depth bp) -> allocated (pk_sums b) (bp_l2_cols bp) ->
      exists b', PackRhs pk m (kf_rhs k) (kf_reg k) junk (GetSideBlockParams Rhs bp) input M b = Some b' /\
        (forall w d, 0 <= w < RoundUp (kCols k) (mm_cols M) -> 0 <= d < bp_l2_depth bp ->
           exists x, pk_data b' (loc w d) = Some x /\
             operand_value (sf_signed (kf_rhs k)) x =
             if (w <? mm_cols M) && (d <? depth) then R d w - sf_zp (kf_rhs k) else 0) /\
        (forall w, 0 <= w < bp_l2_cols bp ->
           pk_sums b' w = Some (if w <? mm_cols M
             then wrapS 32 (sumZ (fun d => R d w - sf_zp (kf_rhs k)) 0 depth) else 0)).
Proof.
  intros Hk Hr Hc Hd Hnt E. pose proof (BlockParams_Init_inv _ _ _ _ _ _ _ Hk Hr Hc Hd Hnt E) as Hbp.
  pose proof (sp_ok_rhs k depth bp Hk Hbp) as Hsp. pose proof Hk as (K1&K2&K3&K4&K5).
  assert (K6 : (sf_cd (kf_rhs k) | kf_reg k)) by (rewrite <- K3; exact K5).
  exists (packed_pos (kf_rhs k) (GetSideBlockParams Rhs bp)). split; [|split].
  - intros w d Hw Hd1. apply (packed_pos_range (kf_rhs k) (kf_reg k) (GetSideBlockParams Rhs bp)); assumption.
  - intros w d w' d' Hw Hd1 Hw' Hd' Heq.
    exact (packed_pos_inj (kf_rhs k) (kf_reg k) (GetSideBlockParams Rhs bp) K2 K6 Hsp w d w' d' Hw Hd1 Hw' Hd' Heq).
  - intros pk m junk input M R b Hpk Hm HMr HMc HL HD HS.
    destruct (PackRhs_spec pk m k depth bp junk Hk Hbp Hd Hm input M R b) as (b' & Eb & B1 & B2 & B3); try assumption.
    exists b'. split; [exact Eb|]. split.
    + intros w d Hw Hd1. exists (byte (pval (kf_rhs k) (fun w d => R d w) (mm_cols M) depth w d)).
      split; [apply B2; assumption|]. rewrite interp_byte.
      * unfold pval. replace (0 <=? w) with true by lia. replace (0 <=? d) with true by lia.
        cbn [andb]. rewrite andb_true_r. reflexivity.
      * apply pval_range. intros w1 d1 Hw1 Hd2. apply (proj1 HL); [|assumption]. rewrite HMc. assumption.
    + intros w Hw. rewrite B3 by assumption. f_equal.
      destruct (Z.ltb_spec w (mm_cols M)) as [Hlt|Hge].
      * f_equal. apply sumZ_ext. intros d Hd1. unfold pval.
        replace ((0 <=? w) && (w <? mm_cols M) && (0 <=? d) && (d <? depth)) with true by lia. reflexivity.
      * rewrite sumZ_zero; [reflexivity|]. intros d Hd1. unfold pval.
        replace ((0 <=? w) && (w <? mm_cols M) && (0 <=? d) && (d <? depth)) with false by lia. reflexivity.
Qed.

Lemma in_min_uint8 f : sf_kind f <> FInt8Inputs -> in_min f = 0.
Proof. unfold in_min. destruct (sf_kind f); congruence. Qed.
Lemma holds_uint8_lhs f input M g : sf_kind f <> FInt8Inputs -> holds_matrix input M g -> holds_lhs f input M g.
Proof. intros Hu H. split; [rewrite in_min_uint8 by exact Hu; exact H|contradiction]. Qed.
Lemma holds_uint8_rhs f input M g : sf_kind f <> FInt8Inputs -> holds_matrix input M g -> holds_rhs f input M g.
Proof. intros Hu H. split; [rewrite in_min_uint8 by exact Hu; exact H|contradiction]. Qed.

Lemma generic_lhs m k : kernel_fmt_ok k -> pack_correct m (kf_lhs k) (kf_reg k) (Pack m (kf_lhs k) (kf_reg k)).
Proof. intros (K1&K2&K3&K4&K5). apply Pack_correct; assumption. Qed.
Lemma generic_rhs m k : kernel_fmt_ok k -> pack_correct m (kf_rhs k) (kf_reg k) (Pack m (kf_rhs k) (kf_reg k)).
Proof. intros (K1&K2&K3&K4&K5). apply Pack_correct; [assumption..|]. rewrite <- K3. exact K5. Qed.

Lemma pack_lhs_generic : forall k rows cols depth nt t bp,
  kernel_fmt_ok k -> sf_kind (kf_lhs k) <> FInt8Inputs -> 0 < rows -> 0 < cols -> 0 < depth -> 0 < nt ->
  BlockParams_Init k rows cols depth nt t = Some bp ->
  exists loc : Z -> Z -> Z,
    (forall w d, 0 <= w < bp_l2_rows bp -> 0 <= d < bp_l2_depth bp ->
       0 <= loc w d < bp_l2_rows bp * bp_l2_depth bp) /\
    (forall w d w' d', 0 <= w < bp_l2_rows bp -> 0 <= d < bp_l2_depth bp ->
       0 <= w' < bp_l2_rows bp -> 0 <= d' < bp_l2_depth bp -> loc w d = loc w' d' -> w = w' /\ d = d') /\
    forall m junk input M L b,
      m = Wrap \/ 255 * bp_l2_depth bp <= 2 ^ 31 - 1 ->
      0 < mm_rows M <= bp_l2_rows bp -> mm_cols M = depth -> holds_matrix input M L ->
      byte_buffer (pk_data b) (bp_l2_rows bp * bp_l2_depth bp) -> allocated (pk_sums b) (bp_l2_rows bp) ->
      exists b', PackLhs Pack m (kf_lhs k) (kf_reg k) junk (GetSideBlockParams Lhs bp) input M b = Some b' /\
        (forall w d, 0 <= w < RoundUp (kRows k) (mm_rows M) -> 0 <= d < bp_l2_depth bp ->
           exists x, pk_data b' (loc w d) = Some x /\
             operand_value (sf_signed (kf_lhs k)) x =
             if (w <? mm_rows M) && (d <? depth) then L w d - sf_zp (kf_lhs k) else 0) /\
        (forall w, 0 <= w < bp_l2_rows bp ->
           pk_sums b' w = Some (if w <? mm_rows M
             then wrapS 32 (sumZ (fun d => L w d - sf_zp (kf_lhs k)) 0 depth) else 0)).
Proof.
  intros k rows cols depth nt t bp Hk Hu Hr Hc Hd Hnt E.
  destruct (pack_lhs_full k rows cols depth nt t bp Hk Hr Hc Hd Hnt E) as (loc & A & B & C).
  exists loc. split; [exact A|]. split; [exact B|].
  intros m junk input M X b H1 H2 H3 H4.
  exact (C Pack m junk input M X b (generic_lhs m k Hk) H1 H2 H3 (holds_uint8_lhs _ _ _ _ Hu H4)).
Qed.

Lemma pack_rhs_generic : forall k rows cols depth nt t bp,
  kernel_fmt_ok k -> sf_kind (kf_rhs k) <> FInt8Inputs -> 0 < rows -> 0 < cols -> 0 < depth -> 0 < nt ->
  BlockParams_Init k rows cols depth nt t = Some bp ->
  exists loc : Z -> Z -> Z,
    (forall w d, 0 <= w < bp_l2_cols bp -> 0 <= d < bp_l2_depth bp ->
       0 <= loc w d < bp_l2_cols bp * bp_l2_depth bp) /\
    (forall w d w' d', 0 <= w < bp_l2_cols bp -> 0 <= d < bp_l2_depth bp ->
       0 <= w' < bp_l2_cols bp -> 0 <= d' < bp_l2_depth bp -> loc w d = loc w' d' -> w = w' /\ d = d') /\
    forall m junk input M R b,
      m = Wrap \/ 255 * bp_l2_depth bp <= 2 ^ 31 - 1 ->
      0 < mm_cols M <= bp_l2_cols bp -> mm_rows M = depth -> holds_matrix input M R ->
      byte_buffer (pk_data b) (bp_l2_cols bp * bp_l2_depth bp) -> allocated (pk_sums b) (bp_l2_cols bp) ->
      exists b', PackRhs Pack m (kf_rhs k) (kf_reg k) junk (GetSideBlockParams Rhs bp) input M b = Some b' /\
        (forall w d, 0 <= w < RoundUp (kCols k) (mm_cols M) -> 0 <= d < bp_l2_depth bp ->
           exists x, pk_data b' (loc w d) = Some x /\
             operand_value (sf_signed (kf_rhs k)) x =
             if (w <? mm_cols M) && (d <? depth) then R d w - sf_zp (kf_rhs k) else 0) /\
        (forall w, 0 <= w < bp_l2_cols bp ->
           pk_sums b' w = Some (if w <? mm_cols M
             then wrapS 32 (sumZ (fun d => R d w - sf_zp (kf_rhs k)) 0 depth) else 0)).
Proof.
  intros k rows cols depth nt t bp Hk Hu Hr Hc Hd Hnt E.
  destruct (pack_rhs_full k rows cols depth nt t bp Hk Hr Hc Hd Hnt E) as (loc & A & B & C).
  exists loc. split; [exact A|]. split; [exact B|].
  intros m junk input M X b H1 H2 H3 H4.
  exact (C Pack m junk input M X b (generic_rhs m k Hk) H1 H2 H3 (holds_uint8_rhs _ _ _ _ Hu H4)).
Qed.
