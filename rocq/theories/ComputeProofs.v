From Verif Require Import Base BaseLemmas CommonModel CommonProofs PackModel PackProofs PackProofs2 PackProofs3 GemmSpec PackProofs4 ComputeModel KernelSpec KernelProofs.

Definition getd (o : option Z) : Z := match o with Some x => x | None => 0 end.

Lemma operand_bound s x : 0 <= x < 256 -> - 255 <= operand_value s x <= 255.
Proof.
  intros Hx. unfold operand_value. destruct s; [|lia].
  pose proof (wrapS_range 8 x ltac:(lia)) as B. unfold int_min, int_max in B.
  change (2 ^ (8 - 1)) with 128 in B. lia.
Qed.

Lemma ovf_dec (m : ovf) : m = Wrap \/ m <> Wrap.
Proof. destruct m; [left; reflexivity|right; discriminate]. Qed.

(* the packed bytes, and what can be read behind them *)
Lemma view_inside p b a : a < sp_l2_width p * sp_l2_depth p -> block_view p b a = pk_data b a.
Proof. intros H. unfold block_view. cbv zeta. replace (a <? sp_l2_width p * sp_l2_depth p) with true by lia. reflexivity. Qed.
Lemma view_behind p b a : (forall i, 0 <= i < sp_l2_width p * sp_l2_depth p -> pk_data b i <> None) -> 0 < sp_l2_width p ->
  0 <= a < sp_l2_width p * sp_l2_depth p + 64 -> block_view p b a <> None.
Proof.
  intros H Hw Ha. unfold block_view. cbv zeta. set (n := sp_l2_width p * sp_l2_depth p) in *.
  pose proof (RoundUp_ge 64 n ltac:(lia)). pose proof (RoundUp_le_mult 64).
  assert (64 <= RoundUp 64 (4 * sp_l2_width p)).
  { destruct (RoundUp_spec 64 (4 * sp_l2_width p) ltac:(lia)) as (q & -> & Hq). nia. }
  destruct (a <? n) eqn:E1; [apply H; lia|]. destruct (a <? RoundUp 64 n); [discriminate|].
  replace (a <? RoundUp 64 n + RoundUp 64 (4 * sp_l2_width p)) with true by lia.
  destruct (pk_sums b _); discriminate.
Qed.

Section Comp.
Variables (ok : Z -> Z -> Prop) (m : ovf) (K : kernel) (depth : Z) (bp : block_params) (lhs rhs : packed).
Let k := k_fmt K.
Hypothesis Hk : kernel_fmt_ok k.
Hypothesis Hbp : bp_ok k depth bp.
Hypothesis Hdepth : 0 < depth.
Hypothesis HK : kernel_usable_on ok m K.
Hypothesis HL : byte_buffer (pk_data lhs) (bp_l2_rows bp * bp_l2_depth bp).
Hypothesis HR : byte_buffer (pk_data rhs) (bp_l2_cols bp * bp_l2_depth bp).
Let depth' := RoundUp (kDepth k) depth.
Hypothesis Hm : m = Wrap \/ 255 * 255 * bp_l2_depth bp <= 2 ^ 31 - 1.

Let spL := GetSideBlockParams Lhs bp.
Let spR := GetSideBlockParams Rhs bp.
Definition Lv (w d : Z) : Z := operand_value (sf_signed (kf_lhs k)) (getd (pk_data lhs (packed_pos (kf_lhs k) spL w d))).
Definition Rv (w d : Z) : Z := operand_value (sf_signed (kf_rhs k)) (getd (pk_data rhs (packed_pos (kf_rhs k) spR w d))).
Definition dot (r c n : Z) : Z := sumZ (fun d => Lv r d * Rv c d) 0 n.
Let Rr := bp_l2_rows bp.
Let Cc := bp_l2_cols bp.

(* rows and columns packed for this product: accepted values, zeros after depth' *)
Definition good (r c : Z) : Prop :=
  (forall d, 0 <= d < depth' -> ok (Lv r d) (Rv c d)) /\
  forall d, depth' <= d < bp_l2_depth bp -> Lv r d = 0 /\ Rv c d = 0.
Definition RI (P : Z -> Z -> Z) (res : mem) : Prop :=
  forall r c, 0 <= r < Rr -> 0 <= c < Cc ->
    exists v, res (r + c * Rr) = Some v /\
      (m = Wrap \/ (0 < P r c -> Z.abs v <= 255 * 255 * RoundUp (kf_reg k) (P r c))) /\
      (0 < P r c -> good r c -> v = wrapS 32 (dot r c (P r c))).
Lemma RI_ext P P' res : (forall r c, 0 <= r < Rr -> 0 <= c < Cc -> P r c = P' r c) -> RI P res -> RI P' res.
Proof. intros E H r c Hr Hc. rewrite <- E by assumption. apply H; assumption. Qed.

Lemma k_cdrhs : (sf_cd (kf_rhs k) | kf_reg k).
Proof. destruct Hk as (K1&K2&K3&K4&K5). rewrite <- K3. exact K5. Qed.

Lemma depth'_facts : depth <= depth' /\ depth' <= bp_l2_depth bp /\ (kDepth k | depth').
Proof.
  pose proof Hk as (K1&K2&K3&K4&K5). destruct Hbp as (_&_&_&_&_&_&_&_&_&_&_&H7&_).
  assert (HkD : 0 < kDepth k) by (destruct K1 as (_&?&_); assumption).
  pose proof (RoundUp_ge (kDepth k) depth HkD). pose proof (RoundUp_ge (kf_reg k) depth K4).
  split; [unfold depth'; lia|]. split; [|apply RoundUp_div; exact HkD].
  rewrite H7. apply RoundUp_le_mult; [exact HkD| |lia].
  exact (Z.divide_trans _ _ _ K5 (RoundUp_div _ _ K4)).
Qed.

Lemma Lv_get w d : 0 <= w < Rr -> 0 <= d < bp_l2_depth bp ->
  exists x, pk_data lhs (packed_pos (kf_lhs k) spL w d) = Some x /\ 0 <= x < 256 /\
    operand_value (sf_signed (kf_lhs k)) x = Lv w d.
Proof.
  intros Hw Hd. destruct Hk as (K1&K2&K3&K4&K5).
  destruct (HL (packed_pos (kf_lhs k) spL w d)) as (x & E & Bx).
  - apply (packed_pos_range (kf_lhs k) (kf_reg k) spL); try assumption. eapply sp_ok_lhs; eassumption.
  - exists x. split; [exact E|]. split; [exact Bx|]. unfold Lv. rewrite E. reflexivity.
Qed.
Lemma Rv_get w d : 0 <= w < Cc -> 0 <= d < bp_l2_depth bp ->
  exists x, pk_data rhs (packed_pos (kf_rhs k) spR w d) = Some x /\ 0 <= x < 256 /\
    operand_value (sf_signed (kf_rhs k)) x = Rv w d.
Proof.
  intros Hw Hd. destruct Hk as (K1&K2&K3&K4&K5).
  destruct (HR (packed_pos (kf_rhs k) spR w d)) as (x & E & Bx).
  - apply (packed_pos_range (kf_rhs k) (kf_reg k) spR); try assumption; [apply k_cdrhs|].
    eapply sp_ok_rhs; eassumption.
  - exists x. split; [exact E|]. split; [exact Bx|]. unfold Rv. rewrite E. reflexivity.
Qed.
Lemma dot_bound r c n : 0 <= r < Rr -> 0 <= c < Cc -> 0 <= n <= bp_l2_depth bp ->
  - (65025 * n) <= dot r c n <= 65025 * n.
Proof.
  intros Hr Hc Hn. unfold dot.
  pose proof (sumZ_bound (fun d => Lv r d * Rv c d) 0 n (-65025) 65025 ltac:(lia)) as Hb.
  destruct Hb as [H1 H2]; [|lia].
  intros i Hi. destruct (Lv_get r i Hr ltac:(lia)) as (x & _ & Bx & <-).
  destruct (Rv_get c i Hc ltac:(lia)) as (y & _ & By & <-).
  pose proof (operand_bound (sf_signed (kf_lhs k)) x Bx). pose proof (operand_bound (sf_signed (kf_rhs k)) y By). nia.
Qed.

Lemma ComputeRun_spec P r0 c0 d0 ds res :
  (kRows k | r0) -> 0 <= r0 -> r0 + kRows k <= Rr ->
  (kCols k | c0) -> 0 <= c0 -> c0 + kCols k <= Cc ->
  (bp_l1_depth bp | d0) -> 0 <= d0 -> 0 < ds <= bp_l1_depth bp -> (kDepth k | ds) -> d0 + ds <= depth' ->
  ((kf_reg k | ds) \/ d0 + ds = depth') ->
  (forall r c, r0 <= r < r0 + kRows k -> c0 <= c < c0 + kCols k -> P r c = d0) ->
  RI P res ->
  exists res', ComputeRun K bp lhs rhs r0 c0 d0 ds res = Some res' /\
    RI (rectP P r0 (r0 + kRows k) c0 (c0 + kCols k) (d0 + ds)) res'.
Proof.
  intros Hr0 Hr0n HrR Hc0 Hc0n HcC Hd0 Hd0n Hds Hdsk Hdd Hlast HP HI.
  destruct depth'_facts as (F1&F2&F3).
  pose proof Hk as (K1&K2&K3&K4&K5).
  assert (D5 : (kf_reg k | bp_l1_depth bp)) by (destruct Hbp as (_&_&_&_&_&_&_&_&_&_&?&_); assumption).
  assert (D6 : (kf_reg k | bp_l2_depth bp)) by (destruct Hbp as (_&_&_&_&_&_&_&_&_&_&_&->&_); apply RoundUp_div; exact K4).
  assert (D7 : (kf_reg k | d0)) by exact (Z.divide_trans _ _ _ D5 Hd0).
  pose proof (RoundUp_ge (kf_reg k) ds K4) as U1.
  pose proof (RoundUp_le_mult (kf_reg k) ds (bp_l1_depth bp) K4 D5 ltac:(lia)) as U2.
  pose proof (RoundUp_le_mult (kf_reg k) ds (bp_l2_depth bp - d0) K4 ltac:(apply Z.divide_sub_r; assumption) ltac:(lia)) as U3.
  assert (U4 : RoundUp (kf_reg k) (d0 + ds) = d0 + RoundUp (kf_reg k) ds).
  { destruct D7 as [q ->]. destruct (RoundUp_spec (kf_reg k) ds K4) as (a & Ea & Ba). destruct (RoundUp_spec (kf_reg k) (q * kf_reg k + ds) K4) as (b & Eb & Bb).
    rewrite Ea, Eb in *. assert (b = q + a) by nia. subst b. ring. }
  pose proof (kRows_pos k Hk) as HkR. pose proof (kCols_pos k Hk) as HkC.
  assert (HWl : sf_width (kf_lhs k) = kRows k) by (unfold sf_width, kRows; ring).
  assert (HWr : sf_width (kf_rhs k) = kCols k) by (unfold sf_width, kCols; ring).
  unfold ComputeRun. cbv zeta. fold k.
  unfold mm_block, guard, packed_result_map. cbn [mm_rows mm_cols].
  fold Rr Cc. replace (0 <=? r0) with true by lia. replace (r0 + kRows k <=? Rr) with true by lia.
  replace (0 <=? c0) with true by lia. replace (c0 + kCols k <=? Cc) with true by lia.
  cbn [bind mm_base mm_rows_stride mm_cols_stride mm_order mm_stride mm_addr].
  unfold mm_addr, mm_rows_stride, mm_cols_stride. cbn [mm_base mm_order mm_stride].
  fold spL spR.
  set (dst := 0 + r0 * 1 + c0 * Rr).
  assert (Haddr : forall r c, dst + (r * 1 + c * Rr) = (r0 + r) + (c0 + c) * Rr) by (intros; unfold dst; ring).
  set (old := fun r c => getd (res ((r0 + r) + (c0 + c) * Rr))).
  assert (Hold : forall r c, 0 <= r < kRows k -> 0 <= c < kCols k -> res (dst + (r * 1 + c * Rr)) = Some (old r c)).
  { intros r c Hr Hc. rewrite Haddr. unfold old.
    destruct (HI (r0 + r) (c0 + c)) as (v & Ev & _ & _); [lia..|]. rewrite Ev. reflexivity. }
  assert (Hinj : forall r c r' c', 0 <= r < kRows k -> 0 <= c < kCols k -> 0 <= r' < kRows k -> 0 <= c' < kCols k ->
       r * 1 + c * Rr = r' * 1 + c' * Rr -> r = r' /\ c = c').
  { intros r c r' c' Hr Hc Hr' Hc' E. destruct (divmod_unique c c' Rr r r'); lia. }
  assert (Hlr : holds_run (kf_lhs k) (block_view spL (seek_run spL r0 d0 lhs)) (run_pos spL r0 d0) (RoundUp (kf_reg k) ds) (fun w d => Lv (r0 + w) (d0 + d))).
  { intros w d Hw Hd. rewrite run_index_ci.
    rewrite <- (packed_pos_run (kf_lhs k) (kf_reg k) spL).
    - rewrite HWl in Hw. destruct (Lv_get (r0 + w) (d0 + d)) as (x & E & Hx); [lia..|]. exists x. split; [|exact Hx].
      rewrite view_inside; [exact E|]. apply (packed_pos_range (kf_lhs k) (kf_reg k) spL); try assumption; [eapply sp_ok_lhs; eassumption| |]; cbn; fold Rr; lia.
    - eapply sp_ok_lhs; eassumption.
    - rewrite HWl. exact Hr0.
    - exact Hd0.
    - exact Hw.
    - cbn. lia. }
  assert (Hrr : holds_run (kf_rhs k) (block_view spR (seek_run spR c0 d0 rhs)) (run_pos spR c0 d0) (RoundUp (kf_reg k) ds) (fun w d => Rv (c0 + w) (d0 + d))).
  { intros w d Hw Hd. rewrite run_index_ci.
    rewrite <- (packed_pos_run (kf_rhs k) (kf_reg k) spR).
    - rewrite HWr in Hw. destruct (Rv_get (c0 + w) (d0 + d)) as (x & E & Hx); [lia..|]. exists x. split; [|exact Hx].
      rewrite view_inside; [exact E|]. apply (packed_pos_range (kf_rhs k) (kf_reg k) spR); try assumption; [apply k_cdrhs|eapply sp_ok_rhs; eassumption| |]; cbn; fold Cc; lia.
    - eapply sp_ok_rhs; eassumption.
    - rewrite HWr. exact Hc0.
    - exact Hd0.
    - exact Hw.
    - cbn. lia. }
  assert (Eold : forall r c, 0 <= r < kRows k -> 0 <= c < kCols k -> 0 < d0 ->
    (m = Wrap \/ Z.abs (old r c) <= 255 * 255 * d0) /\
    (good (r0 + r) (c0 + c) -> old r c = wrapS 32 (dot (r0 + r) (c0 + c) d0))).
  { intros r c Hr Hc Hpos. destruct (HI (r0 + r) (c0 + c)) as (v & Ev & Hb & Hv); [lia..|].
    rewrite HP in Hv, Hb by lia. rewrite (RoundUp_mult (kf_reg k) d0 K4 D7) in Hb.
    unfold old. rewrite Ev. cbn [getd]. split; [tauto|]. exact (Hv Hpos). }
  assert (Hbeh : forall j, 0 <= j < 64 -> block_view spR (seek_run spR c0 d0 rhs)
     (run_pos spR c0 d0 + kCols k * RoundUp (kf_reg k) ds + j) <> None).
  { intros j Hj. apply view_behind; cbn [GetSideBlockParams spR seek_run sp_l2_width sp_l2_depth pk_data pk_sums].
    - intros a Ha. destruct (HR a Ha) as (x & -> & _). discriminate.
    - fold Cc. lia.
    - change (sp_l2_depth (GetSideBlockParams Rhs bp)) with (bp_l2_depth bp).
      unfold run_pos. cbn [spR GetSideBlockParams sp_l2_width sp_l2_depth sp_l1_depth]. fold Cc.
      set (Q := Z.min (bp_l1_depth bp) (bp_l2_depth bp - d0)). set (E := RoundUp (kf_reg k) ds) in *.
      assert (HQ : 0 <= E <= Q) by (unfold Q; lia). assert (HQ2 : d0 + Q <= bp_l2_depth bp) by (unfold Q; lia).
      assert (V1 : (c0 + kCols k) * Q <= Cc * Q) by (apply Z.mul_le_mono_nonneg_r; lia).
      assert (V2 : kCols k * E <= kCols k * Q) by (apply Z.mul_le_mono_nonneg_l; lia).
      assert (V3 : Cc * (d0 + Q) <= Cc * bp_l2_depth bp) by (apply Z.mul_le_mono_nonneg_l; lia).
      assert (V4 : 0 <= Cc * d0) by (apply Z.mul_nonneg_nonneg; lia). assert (V5 : 0 <= c0 * Q) by (apply Z.mul_nonneg_nonneg; lia).
      assert (V6 : 0 <= kCols k * E) by (apply Z.mul_nonneg_nonneg; lia).
      rewrite Z.mul_add_distr_r in V1. rewrite Z.mul_add_distr_l in V3. clear - V1 V2 V3 V4 V5 V6 Hj. lia. }
  destruct (HK res dst Rr (block_view spL (seek_run spL r0 d0 lhs)) (run_pos spL r0 d0) (block_view spR (seek_run spR c0 d0 rhs)) (run_pos spR c0 d0) d0 ds
     (fun w d => Lv (r0 + w) (d0 + d)) (fun w d => Rv (c0 + w) (d0 + d)) old) as (res' & E & HN & HO);
    try assumption; try lia.
  - fold k. destruct (ovf_dec m) as [?|NW]; [left; assumption|right].
    destruct Hm as [?|Hm']; [contradiction|]. split; [lia|].
    destruct (Z.eq_dec d0 0) as [?|Hnz]; [left; assumption|right].
    intros r c Hr Hc. fold k in Hr, Hc. destruct (Eold r c Hr Hc ltac:(lia)) as [[?|Hb] _]; [contradiction|]. lia.
  - exists res'. split; [exact E|]. intros r c Hr Hc. unfold rectP.
    destruct ((r0 <=? r) && (r <? r0 + kRows k) && (c0 <=? c) && (c <? c0 + kCols k)) eqn:Ein.
    + destruct (HN (r - r0) (c - c0)) as (v & Ev & Hb & Hv); [fold k; lia..|]. fold k in Hb, Hv. rewrite Haddr in Ev.
      replace (r0 + (r - r0)) with r in * by lia. replace (c0 + (c - c0)) with c in * by lia.
      exists v. split; [exact Ev|]. split.
      { destruct Hb as [?|Hb]; [left; assumption|]. destruct (ovf_dec m) as [?|NW]; [left; assumption|right].
        intros _. rewrite U4. destruct (Z.eqb_spec d0 0) as [E0|Hnz]; [lia|].
        destruct (Eold (r - r0) (c - c0) ltac:(lia) ltac:(lia) ltac:(lia)) as [[?|Ho] _]; [contradiction|]. lia. }
      intros _ [G1 G2].
      assert (Es : sumZ (fun d => Lv r (d0 + d) * Rv c (d0 + d)) 0 ds = sumZ (fun d => Lv r d * Rv c d) d0 (d0 + ds)).
      { transitivity (sumZ (fun d => Lv r d * Rv c d) (0 + d0) (ds + d0)); [|f_equal; lia].
        rewrite sumZ_shift. apply sumZ_ext. intros i _. rewrite (Z.add_comm d0 i). reflexivity. }
      rewrite Hv; clear Hv.
      2:{ intros d Hd. apply G1. lia. }
      2:{ intros d Hd. apply G2. destruct Hlast as [Hl|Hl]; [|lia]. rewrite (RoundUp_mult (kf_reg k) ds K4 Hl) in Hd. lia. }
      rewrite Es. unfold dot. rewrite (sumZ_split _ 0 d0 (d0 + ds)) by lia.
      destruct (Z.eqb_spec d0 0) as [E0|Hnz].
      * rewrite (sumZ_empty _ 0 d0) by lia. reflexivity.
      * destruct (Eold (r - r0) (c - c0) ltac:(lia) ltac:(lia) ltac:(lia)) as [_ Ho].
        replace (r0 + (r - r0)) with r in Ho by lia. replace (c0 + (c - c0)) with c in Ho by lia.
        rewrite Ho by (split; assumption). rewrite wrapS_add_l by lia. reflexivity.
    + destruct (HI r c Hr Hc) as (v & Ev & Hb & Hv). exists v. split; [|split; [exact Hb|exact Hv]].
      rewrite HO; [exact Ev|]. intros r' c' Hr' Hc'. fold k in Hr', Hc'. rewrite Haddr. intros Eq.
      destruct (divmod_unique c (c0 + c') Rr r (r0 + r')); lia.
Qed.

Ltac bd := repeat match goal with |- context [if ?b then _ else _] => destruct b eqn:? end; try reflexivity; try lia.

Lemma ComputeL1_spec P r0 rows d0 ds res :
  (kRows k | r0) -> 0 <= r0 -> 0 <= rows -> r0 + rows <= Rr -> (kRows k | rows) ->
  (bp_l1_depth bp | d0) -> 0 <= d0 -> 0 < ds <= bp_l1_depth bp -> (kDepth k | ds) -> d0 + ds <= depth' ->
  ((kf_reg k | ds) \/ d0 + ds = depth') ->
  (forall r c, r0 <= r < r0 + rows -> 0 <= c < Cc -> P r c = d0) ->
  RI P res ->
  exists res', ComputeL1 K bp lhs rhs r0 rows 0 Cc d0 ds res = Some res' /\
    RI (rectP P r0 (r0 + rows) 0 Cc (d0 + ds)) res'.
Proof.
  intros Hr0 Hr0n Hrn HrR Hdr Hd0 Hd0n Hds Hdsk Hdd Hlast HP HI.
  pose proof (kRows_pos k Hk) as HkR. pose proof (kCols_pos k Hk) as HkC.
  assert (HCd : (kCols k | Cc)) by (destruct Hbp as (_&_&_&_&_&_&_&?&_); assumption).
  assert (HCp : 0 < Cc) by (destruct Hbp as (_&?&_); assumption).
  unfold ComputeL1. cbv zeta. fold k. unfold guard.
  assert (HkD : 0 < kDepth k) by (destruct Hk as ((_&?&_)&_); assumption).
  rewrite (proj2 (Z.mod_divide rows (kRows k) ltac:(lia)) Hdr).
  rewrite (proj2 (Z.mod_divide Cc (kCols k) ltac:(lia)) HCd).
  rewrite (proj2 (Z.mod_divide ds (kDepth k) ltac:(lia)) Hdsk). cbn [Z.eqb bind].
  apply (for_step_inv (fun c res => RI (rectP P r0 (r0 + rows) 0 c (d0 + ds)) res)).
  - lia.
  - lia.
  - eapply RI_ext; [|exact HI]. intros r c Hr Hc. unfold rectP. bd.
  - intros c0 res1 Hc0 Hdc HI1. rewrite Z.sub_0_r in Hdc.
    assert (Hcle : c0 + kCols k <= Cc) by (apply mult_step; try assumption; lia).
    rewrite Z.min_l by lia.
    destruct (for_step_inv (fun r res => RI (rectP (rectP P r0 (r0 + rows) 0 c0 (d0 + ds))
        r0 (r0 + r) c0 (c0 + kCols k) (d0 + ds)) res) 0 rows (kRows k)
        (fun r res => ComputeRun K bp lhs rhs (r0 + r) (0 + c0) d0 ds res) res1) as (res2 & E2 & HI2).
    + lia.
    + lia.
    + eapply RI_ext; [|exact HI1]. intros r c Hr Hc. unfold rectP. bd.
    + intros r1 res3 Hr1 Hdr1 HI3. rewrite Z.sub_0_r in Hdr1.
      assert (Hrle : r1 + kRows k <= rows) by (apply mult_step; try assumption; lia).
      rewrite Z.min_l by lia.
      match type of HI3 with RI ?Q _ =>
        destruct (ComputeRun_spec Q (r0 + r1) (0 + c0) d0 ds res3) as (res4 & E4 & HI4) end;
        try assumption; try lia.
      * apply Z.divide_add_r; assumption.
      * intros r c Hr Hc. unfold rectP. bd. apply HP; lia.
      * exists res4. split; [exact E4|]. eapply RI_ext; [|exact HI4].
        intros r c Hr Hc. unfold rectP. bd.
    + exists res2. split; [exact E2|]. eapply RI_ext; [|exact HI2].
      intros r c Hr Hc. unfold rectP. bd.
Qed.

Lemma Compute_spec res : allocated res (Rr * Cc) ->
  exists res', Compute K bp lhs rhs depth res = Some res' /\
    forall r c, 0 <= r < Rr -> 0 <= c < Cc -> exists v, res' (r + c * Rr) = Some v /\
      (good r c -> v = wrapS 32 (dot r c depth')).
Proof.
  intros Hres. destruct depth'_facts as (F1&F2&F3).
  pose proof Hk as (K1&K2&K3&K4&K5).
  pose proof Hbp as (H1&H2&H3&H4&H5&H6&D1&D2&D3&D4&D5&H7&H8&H9&H10).
  pose proof (kRows_pos k Hk) as HkR.
  unfold Compute. cbv zeta. fold k depth' Rr Cc. unfold guard.
  replace (depth' <=? bp_l2_depth bp) with true by lia. cbn [bind].
  match goal with |- exists res', for_step 0 ?n ?s ?bd ?s0 = _ /\ _ =>
    destruct (for_step_inv (fun d res => RI (fun _ _ => d) res) 0 n s bd s0) as (res' & E & HI) end.
  - lia.
  - lia.
  - intros r c Hr Hc. destruct (Hres (r + c * Rr)) as [v Ev].
    + assert ((c + 1) * Rr <= Cc * Rr) by (apply Z.mul_le_mono_nonneg_r; lia).
      assert (0 <= c * Rr) by (apply Z.mul_nonneg_nonneg; lia). lia.
    + exists v. split; [exact Ev|]. split; [right; lia|lia].
  - intros d0 res1 Hd0 Hdd HI1. rewrite Z.sub_0_r in Hdd.
    set (ds := Z.min (bp_l1_depth bp) (depth' - d0)).
    assert (HdsD : (kDepth k | ds)).
    { assert (L1 : (kDepth k | bp_l1_depth bp)) by (exact (Z.divide_trans _ _ _ K5 D5)).
      unfold ds. destruct (Z.le_gt_cases (bp_l1_depth bp) (depth' - d0)).
      - rewrite Z.min_l by lia. exact L1.
      - rewrite Z.min_r by lia. apply Z.divide_sub_r; [exact F3|]. exact (Z.divide_trans _ _ _ L1 Hdd). }
    replace (Z.min (d0 + bp_l1_depth bp) depth') with (d0 + ds) by lia.
    assert (Hlast : (kf_reg k | ds) \/ d0 + ds = depth').
    { unfold ds. destruct (Z.le_gt_cases (bp_l1_depth bp) (depth' - d0)).
      - left. rewrite Z.min_l by lia. exact D5.
      - right. lia. }
    destruct (for_step_inv (fun r res => RI (rectP (fun _ _ => d0) 0 r 0 Cc (d0 + ds)) res) 0 Rr (bp_l1_rows bp)
      (fun r res => ComputeL1 K bp lhs rhs r (Z.min (bp_l1_rows bp) (Rr - r)) 0 Cc d0 ds res) res1)
      as (res2 & E2 & HI2).
    + lia.
    + lia.
    + eapply RI_ext; [|exact HI1]. intros r c Hr Hc. unfold rectP. bd.
    + intros r0 res3 Hr0 Hdr0 HI3. rewrite Z.sub_0_r in Hdr0.
      set (rs := Z.min (bp_l1_rows bp) (Rr - r0)).
      assert (Hkr0 : (kRows k | r0)) by (exact (Z.divide_trans _ _ _ D3 Hdr0)).
      assert (Hkrs : (kRows k | rs)).
      { unfold rs. destruct (Z.le_gt_cases (bp_l1_rows bp) (Rr - r0)).
        - rewrite Z.min_l by lia. exact D3.
        - rewrite Z.min_r by lia. apply Z.divide_sub_r; [exact D1|exact Hkr0]. }
      match type of HI3 with RI ?Q _ =>
        destruct (ComputeL1_spec Q r0 rs d0 ds res3) as (res4 & E4 & HI4) end; try assumption; try lia.
      * intros r c Hr Hc. unfold rectP. bd.
      * exists res4. split; [exact E4|]. eapply RI_ext; [|exact HI4].
        replace (Z.min (r0 + bp_l1_rows bp) Rr) with (r0 + rs) by lia.
        intros r c Hr Hc. unfold rectP. bd.
    + exists res2. split; [exact E2|]. eapply RI_ext; [|exact HI2].
      intros r c Hr Hc. unfold rectP. bd.
  - exists res'. split; [exact E|]. intros r c Hr Hc. destruct (HI r c Hr Hc) as (v & Ev & _ & Hv).
    exists v. split; [exact Ev|]. intros G. apply Hv; [lia|exact G].
Qed.
End Comp.
