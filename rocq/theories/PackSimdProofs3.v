(* PackSimdProofs3.v: packing a whole side with the vectorised code *)
From Verif Require Import Base BaseLemmas CommonModel CommonProofs PackModel PackSpec GemmSpec PackProofs PackBlock PackProofs4
  PackSimdModel PackSimdProofs PackSimdProofs2
  PackMsaModel PackMsaProofs.

Lemma simd_packer_correct m f kreg pk : simd_packer kreg pk -> side_fmt_ok f -> (sf_cd f | kreg) ->
  pack_correct m f kreg (pk m f kreg).
Proof.
  intros [H8 H0|H16 H0|E|E] Hf Hcd.
  - apply sse_packer_correct; assumption.
  - apply avx_packer_correct; assumption.
  - subst kreg. apply neon_packer_correct; assumption.
  - subst kreg. apply msa_packer_correct; assumption.
Qed.

Lemma pack_lhs_simd k rows cols depth nt t bp pk :
  kernel_fmt_ok k -> simd_packer (kf_reg k) pk -> 0 < rows -> 0 < cols -> 0 < depth -> 0 < nt ->
  BlockParams_Init k rows cols depth nt t = Some bp ->
  exists loc : Z -> Z -> Z,
    (forall w d, 0 <= w < bp_l2_rows bp -> 0 <= d < bp_l2_depth bp ->
       0 <= loc w d < bp_l2_rows bp * bp_l2_depth bp) /\
    (forall w d w' d', 0 <= w < bp_l2_rows bp -> 0 <= d < bp_l2_depth bp ->
       0 <= w' < bp_l2_rows bp -> 0 <= d' < bp_l2_depth bp -> loc w d = loc w' d' -> w = w' /\ d = d') /\
    forall m junk input M L b,
      m = Wrap \/ 255 * bp_l2_depth bp <= 2 ^ 31 - 1 ->
      0 < mm_rows M <= bp_l2_rows bp -> mm_cols M = depth -> holds_lhs (kf_lhs k) input M L ->
      byte_buffer (pk_data b) (bp_l2_rows bp * bp_l2_depth bp) -> allocated (pk_sums b) (bp_l2_rows bp) ->
      exists b', PackLhs pk m (kf_lhs k) (kf_reg k) junk (GetSideBlockParams Lhs bp) input M b = Some b' /\
        (forall w d, 0 <= w < RoundUp (kRows k) (mm_rows M) -> 0 <= d < bp_l2_depth bp ->
           exists x, pk_data b' (loc w d) = Some x /\
             operand_value (sf_signed (kf_lhs k)) x =
             if (w <? mm_rows M) && (d <? depth) then L w d - sf_zp (kf_lhs k) else 0) /\
        (forall w, 0 <= w < bp_l2_rows bp ->
           pk_sums b' w = Some (if w <? mm_rows M
             then wrapS 32 (sumZ (fun d => L w d - sf_zp (kf_lhs k)) 0 depth) else 0)).
Proof.
  intros Hk Hp Hr Hc Hd Hnt E.
  destruct (pack_lhs_full k rows cols depth nt t bp Hk Hr Hc Hd Hnt E) as (loc & A & B & C).
  exists loc. split; [exact A|]. split; [exact B|]. intros m junk input M L b. apply (C pk).
  destruct Hk as (K1&K2&K3&K4&K5). apply simd_packer_correct; assumption.
Qed.
Lemma pack_rhs_simd k rows cols depth nt t bp pk :
  kernel_fmt_ok k -> simd_packer (kf_reg k) pk -> 0 < rows -> 0 < cols -> 0 < depth -> 0 < nt ->
  BlockParams_Init k rows cols depth nt t = Some bp ->
  exists loc : Z -> Z -> Z,
    (forall w d, 0 <= w < bp_l2_cols bp -> 0 <= d < bp_l2_depth bp ->
       0 <= loc w d < bp_l2_cols bp * bp_l2_depth bp) /\
    (forall w d w' d', 0 <= w < bp_l2_cols bp -> 0 <= d < bp_l2_depth bp ->
       0 <= w' < bp_l2_cols bp -> 0 <= d' < bp_l2_depth bp -> loc w d = loc w' d' -> w = w' /\ d = d') /\
    forall m junk input M R b,
      m = Wrap \/ 255 * bp_l2_depth bp <= 2 ^ 31 - 1 ->
      0 < mm_cols M <= bp_l2_cols bp -> mm_rows M = depth -> holds_rhs (kf_rhs k) input M R ->
      byte_buffer (pk_data b) (bp_l2_cols bp * bp_l2_depth bp) -> allocated (pk_sums b) (bp_l2_cols bp) ->
      exists b', PackRhs pk m (kf_rhs k) (kf_reg k) junk (GetSideBlockParams Rhs bp) input M b = Some b' /\
        (forall w d, 0 <= w < RoundUp (kCols k) (mm_cols M) -> 0 <= d < bp_l2_depth bp ->
           exists x, pk_data b' (loc w d) = Some x /\
             operand_value (sf_signed (kf_rhs k)) x =
             if (w <? mm_cols M) && (d <? depth) then R d w - sf_zp (kf_rhs k) else 0) /\
        (forall w, 0 <= w < bp_l2_cols bp ->
           pk_sums b' w = Some (if w <? mm_cols M
             then wrapS 32 (sumZ (fun d => R d w - sf_zp (kf_rhs k)) 0 depth) else 0)).
Proof.
  intros Hk Hp Hr Hc Hd Hnt E.
  destruct (pack_rhs_full k rows cols depth nt t bp Hk Hr Hc Hd Hnt E) as (loc & A & B & C).
  exists loc. split; [exact A|]. split; [exact B|]. intros m junk input M R b. apply (C pk).
  destruct Hk as (K1&K2&K3&K4&K5). apply simd_packer_correct; try assumption. rewrite <- K3. exact K5.
Qed.

(* the vectorised code and the generic code leave the same memories *)
Lemma simd_as_generic m f kreg pk src sw b g s :
  simd_packer kreg pk -> side_fmt_ok f -> (sf_cd f | kreg) -> sf_kind f <> FInt8Inputs ->
  sm_width src = sf_width f -> sm_depth src = kreg ->
  (forall w d, 0 <= w < sf_width f -> 0 <= d < kreg -> sm_get src w d = Some (g w d) /\ 0 <= g w d <= 255) ->
  (forall w d, 0 <= w < sf_width f -> 0 <= d < kreg -> exists v, pk_data b (pk_pos b + run_index f w d) = Some v) ->
  (forall w, 0 <= w < sf_width f -> pk_sums b (sw + w) = Some (s w) /\ - 2 ^ 31 <= s w <= 2 ^ 31 - 1) ->
  (m = Wrap \/ forall w, 0 <= w < sf_width f -> Z.abs (s w) + 255 * kreg <= 2 ^ 31 - 1) ->
  exists b1 b2, pk m f kreg src sw b = Some b1 /\ Pack m f kreg src sw b = Some b2 /\
    (forall a, pk_data b1 a = pk_data b2 a) /\ (forall a, pk_sums b1 a = pk_sums b2 a) /\ pk_pos b1 = pk_pos b2.
Proof.
  intros Hp Hf Hcd Hu A1 A2 A3' A4 A5 A6.
  assert (A0 : sf_kind f = FInt8Inputs -> sm_order src = SWidthMajor) by (intros E; contradiction).
  assert (A3 : forall w d, 0 <= w < sf_width f -> 0 <= d < kreg -> sm_get src w d = Some (g w d) /\ in_min f <= g w d <= in_min f + 255)
    by (rewrite in_min_uint8 by exact Hu; exact A3').
  assert (Hreg : 0 < kreg) by (destruct Hp; lia).
  destruct (simd_packer_correct m f kreg pk Hp Hf Hcd src sw b g s A0 A1 A2 A3 A4 A5 A6) as (b1 & E1 & D1 & F1 & S1 & G1 & P1).
  destruct (Pack_correct m f kreg Hf Hreg Hcd src sw b g s A0 A1 A2 A3 A4 A5 A6) as (b2 & E2 & D2 & F2 & S2 & G2 & P2).
  exists b1, b2. split; [exact E1|]. split; [exact E2|]. split; [|split].
  - intros a. set (cand := list_prod (seq 0 (Z.to_nat (sf_width f))) (seq 0 (Z.to_nat kreg))).
    destruct (existsb (fun wd => a =? pk_pos b + run_index f (Z.of_nat (fst wd)) (Z.of_nat (snd wd))) cand) eqn:Ex.
    + apply existsb_exists in Ex. destruct Ex as ([w d] & Hin & Ha). cbn [fst snd] in Ha. apply Z.eqb_eq in Ha. subst a.
      unfold cand in Hin. apply in_prod_iff in Hin. destruct Hin as [Hw Hd]. apply in_seq in Hw, Hd.
      rewrite D1, D2 by lia. reflexivity.
    + assert (Hout : forall w d, 0 <= w < sf_width f -> 0 <= d < kreg -> a <> pk_pos b + run_index f w d).
      { intros w d Hw Hd Ha. apply Bool.not_true_iff_false in Ex. apply Ex, existsb_exists.
        exists (Z.to_nat w, Z.to_nat d). split.
        - apply in_prod_iff. split; apply in_seq; lia.
        - cbn [fst snd]. rewrite !Z2Nat.id by lia. apply Z.eqb_eq, Ha. }
      rewrite F1, F2 by exact Hout. reflexivity.
  - intros a. destruct (Z_lt_ge_dec a sw) as [H|H]; [rewrite G1, G2 by lia; reflexivity|].
    destruct (Z_lt_ge_dec a (sw + sf_width f)) as [H'|H']; [|rewrite G1, G2 by lia; reflexivity].
    replace a with (sw + (a - sw)) by lia. rewrite S1, S2 by lia. reflexivity.
  - rewrite P1, P2. reflexivity.
Qed.

(* the NEON code fills 16 levels whatever the register size *)
Definition px_fmt : side_fmt := mk_side_fmt 4 2 CDepthMajor 1 FUint8.
Definition px_src (n : Z) : side_map :=
  mk_smap (fun a => if (0 <=? a) && (a <? 4 * n) then Some (a * 7 mod 256) else None) 0 4 n n SWidthMajor.
Definition px_block (n : Z) : packed :=
  mk_packed (fun a => if (0 <=? a) && (a <? 4 * n) then Some 0 else None) (fun a => if (0 <=? a) && (a <? 4) then Some a else None) 0 (fun a => a).
Lemma neon_needs_16_refuted : exists f, side_fmt_ok f /\ (sf_cd f | 32) /\ ~ pack_correct Wrap f 32 (neon_packer Wrap f 32).
Proof.
  exists px_fmt. split; [repeat split; cbn; lia || discriminate|]. split; [exists 16; reflexivity|]. intros H.
  destruct (H (px_src 32) 0 (px_block 32) (fun w d => (w * 32 + d) * 7 mod 256) (fun w => w)) as (b' & E & D & _).
  - discriminate.
  - reflexivity.
  - reflexivity.
  - change (sf_width px_fmt) with 4. change (in_min px_fmt) with 0. intros w d Hw Hd. split.
    + unfold sm_get, rd, sm_addr, px_src, sm_width_stride, sm_depth_stride. cbn [sm_mem sm_base sm_order sm_stride].
      replace (0 + w * 32 + d * 1) with (w * 32 + d) by ring.
      replace ((0 <=? w * 32 + d) && (w * 32 + d <? 4 * 32)) with true by lia. reflexivity.
    + pose proof (Z.mod_pos_bound ((w * 32 + d) * 7) 256 ltac:(lia)). lia.
  - change (sf_width px_fmt) with 4. intros w d Hw Hd. exists 0. unfold px_block. cbn [pk_data pk_pos].
    assert (0 <= run_index px_fmt w d < 128).
    { rewrite run_index_ci. assert (Hf : side_fmt_ok px_fmt) by (repeat split; cbn; lia || discriminate).
      pose proof (ci_range px_fmt Hf w d 32). change (sf_width px_fmt) with 4 in *. specialize (H0 ltac:(lia) ltac:(lia) ltac:(exists 16; reflexivity)). lia. }
    replace ((0 <=? 0 + run_index px_fmt w d) && (0 + run_index px_fmt w d <? 4 * 32)) with true by lia. reflexivity.
  - change (sf_width px_fmt) with 4. intros w Hw. split; [|lia]. unfold px_block. cbn [pk_sums].
    replace ((0 <=? 0 + w) && (0 + w <? 4)) with true by lia. reflexivity.
  - left. reflexivity.
  - specialize (D 1 20 ltac:(change (sf_width px_fmt) with 4; lia) ltac:(lia)).
    revert D. vm_compute in E. injection E as <-. vm_compute. discriminate.
Qed.
