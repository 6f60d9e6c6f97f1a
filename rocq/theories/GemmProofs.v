From Coq Require Import Permutation.
From Verif Require Import Base BaseLemmas CommonModel CommonProofs PackModel PackProofs PackProofs2 PackProofs3 GemmSpec PackProofs4
  FixedPointModel FixedPointSpec ComputeModel KernelSpec KernelProofs ComputeProofs OutputModel OutputSpec OutputProofs UnpackModel UnpackProofs OutputSimdModel OutputSimdSpec OutputSimdUnpack GemmModel GemmContract.

(* ------------------------------------------------------------------ *)
(* The scalar identity behind the offset correction *)
Lemma wrapS_shift z n : wrapS 32 (z + n * 2 ^ 32) = wrapS 32 z.
Proof. apply wrapS_eq_mod; [lia|]. apply Z_mod_plus_full. Qed.

Definition cong (a b : Z) : Prop := a mod 2 ^ 32 = b mod 2 ^ 32.
Lemma cong_wrap a b : cong a b -> cong (wrapS 32 a) b.
Proof. unfold cong. rewrite wrapS_mod by lia. auto. Qed.
Lemma cong_add a b c d : cong a b -> cong c d -> cong (a + c) (b + d).
Proof. unfold cong. intros H1 H2. rewrite Z.add_mod, H1, H2, <- Z.add_mod by lia. reflexivity. Qed.
Lemma cong_mul a b c d : cong a b -> cong c d -> cong (a * c) (b * d).
Proof. unfold cong. intros H1 H2. rewrite Z.mul_mod, H1, H2, <- Z.mul_mod by lia. reflexivity. Qed.
Lemma cong_refl a : cong a a.
Proof. reflexivity. Qed.
Lemma cong_eq a b : cong a b -> wrapS 32 a = wrapS 32 b.
Proof. apply wrapS_eq_mod. lia. Qed.
Global Opaque cong.

Lemma sum_identity L R (zl zr lo ro depth : Z) : 0 <= depth ->
  sumZ (fun d => (L d + lo) * (R d + ro)) 0 depth =
  sumZ (fun d => (L d - zl) * (R d - zr)) 0 depth + sumZ (fun d => L d - zl) 0 depth * (ro + zr) +
  (sumZ (fun d => R d - zr) 0 depth + (ro + zr) * depth) * (lo + zl).
Proof.
  intros Hd.
  assert (E : forall d, (L d + lo) * (R d + ro) =
     (L d - zl) * (R d - zr) + (ro + zr) * (L d - zl) + ((lo + zl) * (R d - zr) + (lo + zl) * (ro + zr))) by (intros; ring).
  rewrite (sumZ_ext _ _ 0 depth (fun d _ => E d)). rewrite !sumZ_add, !sumZ_mul_l, sumZ_const by lia. ring.
Qed.

Lemma sumZ_abs f n B : 0 <= n -> 0 <= B -> (forall i, 0 <= i < n -> Z.abs (f i) <= B) -> Z.abs (sumZ f 0 n) <= B * n.
Proof.
  intros Hn HB H. pose proof (sumZ_bound f 0 n (- B) B Hn) as A. rewrite Z.sub_0_r in A.
  assert (forall i, 0 <= i < n -> - B <= f i <= B) as H' by (intros i Hi; specialize (H i Hi); lia).
  specialize (A H'). lia.
Qed.

Definition small (nl nr Ml Mr lo ro : Z) : Prop := - Ml <= lo + nl <= Ml - 255 /\ - Mr <= ro + nr <= Mr - 255.

Lemma abs_mul_le a b A B : Z.abs a <= A -> Z.abs b <= B -> Z.abs (a * b) <= A * B.
Proof. intros. rewrite Z.abs_mul. apply Z.mul_le_mono_nonneg; lia. Qed.

Lemma fit32 z : Z.abs z <= int_max 32 -> int_min 32 <= z <= int_max 32.
Proof. unfold int_min, int_max. cbn. lia. Qed.

Lemma addc_fits m k x : int_min 32 <= x + k <= int_max 32 -> addc m k x = Some (x + k).
Proof.
  intros H. unfold addc. destruct (k =? 0) eqn:E; [f_equal; lia|]. apply norm_fits; [lia|exact H].
Qed.

Lemma MulAdd_fits m a b c : Z.abs (a * b) <= int_max 32 -> Z.abs (c + a * b) <= int_max 32 -> MulAdd m a b c = Some (c + a * b).
Proof.
  intros H1 H2. unfold MulAdd. rewrite norm_fits by (try lia; apply fit32; assumption). cbn [bind].
  apply norm_fits; [lia|]. apply fit32. assumption.
Qed.

Lemma bound_chain Ml Mr d X : 255 <= Ml -> 255 <= Mr -> 1 <= d -> Ml * Mr * d <= X ->
  255 * 255 <= Ml * Mr /\ 255 * 255 * d <= X /\ 255 * Mr * d <= X /\ Mr * d <= X /\ Mr <= X /\ Ml <= X /\ 255 * d <= X.
Proof.
  intros H1 H2 H3 H4.
  assert (A : 255 * Mr <= Ml * Mr) by (apply Z.mul_le_mono_nonneg_r; lia).
  assert (B : 255 * Mr * d <= Ml * Mr * d) by (apply Z.mul_le_mono_nonneg_r; lia).
  assert (C : 255 * 255 * d <= 255 * Mr * d) by (apply Z.mul_le_mono_nonneg_r; lia).
  assert (D : 1 * d <= Mr * d) by (apply Z.mul_le_mono_nonneg_r; lia).
  assert (E : Mr * 1 <= Mr * d) by (apply Z.mul_le_mono_nonneg_l; lia).
  assert (F : Ml * 255 <= Ml * Mr) by (apply Z.mul_le_mono_nonneg_l; lia).
  assert (G : Ml * Mr * 1 <= Ml * Mr * d) by (apply Z.mul_le_mono_nonneg_l; lia).
  lia.
Qed.

Lemma unpack_exact m zl zr nl nr depth L R lo ro :
  0 < depth -> (0 <= zl <= 128 /\ nl = 0 \/ zl = 0 /\ nl = -128) -> (0 <= zr <= 128 /\ nr = 0 \/ zr = 0 /\ nr = -128) ->
  (forall d, 0 <= d < depth -> nl <= L d <= nl + 255 /\ nr <= R d <= nr + 255) ->
  (m = Wrap \/ exists Ml Mr, 255 <= Ml /\ 255 <= Mr /\ Ml * Mr * depth <= int_max 32 /\ small nl nr Ml Mr lo ro) ->
  exists a, unpack_at m zl zr depth (wrapS 32 (sumZ (fun d => (L d - zl) * (R d - zr)) 0 depth))
    (wrapS 32 (sumZ (fun d => L d - zl) 0 depth)) (wrapS 32 (sumZ (fun d => R d - zr) 0 depth)) lo ro = Some a /\
    wrapS 32 a = wrapS 32 (sumZ (fun d => (L d + lo) * (R d + ro)) 0 depth) /\ int_min 32 <= a <= int_max 32.
Proof.
  intros Hd Hzl Hzr HLR Hm.
  rewrite (sum_identity L R zl zr lo ro depth) by lia.
  set (P := sumZ (fun d => (L d - zl) * (R d - zr)) 0 depth).
  set (SL := sumZ (fun d => L d - zl) 0 depth). set (SR := sumZ (fun d => R d - zr) 0 depth).
  destruct Hm as [->|(Ml & Mr & Bl & Br & Hb & Hlo & Hro)].
  - assert (Ea : forall k x, exists y, addc Wrap k x = Some y /\ cong y (x + k)).
    { intros k x. unfold addc. destruct (k =? 0) eqn:E.
      - exists x. split; [reflexivity|]. replace (x + k) with x by lia. apply cong_refl.
      - eexists. split; [reflexivity|]. apply cong_wrap, cong_refl. }
    unfold unpack_at. destruct (Ea zl lo) as (lo' & -> & Hlo). destruct (Ea zr ro) as (ro' & -> & Hro). cbn [bind].
    unfold MulAdd. cbn [norm bind]. eexists. split; [reflexivity|]. split; [|apply wrapS_range; lia].
    apply cong_eq, cong_wrap, cong_add; apply cong_wrap; [apply cong_add|apply cong_mul]; try exact Hlo; apply cong_wrap.
    + apply cong_refl.
    + apply cong_mul; [apply cong_wrap, cong_refl|exact Hro].
    + apply cong_add; apply cong_wrap; [apply cong_refl|]. apply cong_mul; [exact Hro|apply cong_refl].
  - destruct (bound_chain Ml Mr depth (int_max 32) Bl Br ltac:(lia) Hb) as (HMM & HdB & D1 & D2 & D3 & D4 & D5).
    assert (BL : Z.abs SL <= 255 * depth) by (apply sumZ_abs; [lia|lia|]; intros i Hi; destruct (HLR i Hi); lia).
    assert (BR : Z.abs SR <= 255 * depth) by (apply sumZ_abs; [lia|lia|]; intros i Hi; destruct (HLR i Hi); lia).
    assert (BP : Z.abs P <= (255 * 255) * depth).
    { apply sumZ_abs; [lia|lia|]. intros i Hi. destruct (HLR i Hi). apply abs_mul_le; lia. }
    assert (E1 : P + SL * (ro + zr) = sumZ (fun d => (L d - zl) * (R d + ro)) 0 depth).
    { unfold P, SL. rewrite Z.mul_comm, <- sumZ_mul_l, <- sumZ_add. apply sumZ_ext. intros d _. ring. }
    assert (E2 : SR + (ro + zr) * depth = sumZ (fun d => R d + ro) 0 depth).
    { unfold SR. replace ((ro + zr) * depth) with (sumZ (fun _ => ro + zr) 0 depth) by (rewrite sumZ_const by lia; ring).
      rewrite <- sumZ_add. apply sumZ_ext. intros d _. ring. }
    assert (B1 : Z.abs (P + SL * (ro + zr)) <= (255 * Mr) * depth).
    { rewrite E1. apply sumZ_abs; [lia|lia|]. intros i Hi. destruct (HLR i Hi). apply abs_mul_le; lia. }
    assert (B2 : Z.abs (SR + (ro + zr) * depth) <= Mr * depth).
    { rewrite E2. apply sumZ_abs; [lia|lia|]. intros i Hi. destruct (HLR i Hi). lia. }
    assert (B3 : Z.abs (P + SL * (ro + zr) + (SR + (ro + zr) * depth) * (lo + zl)) <= (Ml * Mr) * depth).
    { unfold P, SL, SR. rewrite <- (sum_identity L R zl zr lo ro depth) by lia.
      apply sumZ_abs; [lia|lia|]. intros i Hi. destruct (HLR i Hi). apply abs_mul_le; lia. }
    assert (Br' : Z.abs (ro + zr) <= Mr) by lia. assert (Bl' : Z.abs (lo + zl) <= Ml) by lia.
    assert (C1 : Z.abs (SL * (ro + zr)) <= (255 * depth) * Mr) by (apply abs_mul_le; assumption).
    assert (C2 : Z.abs ((SR + (ro + zr) * depth) * (lo + zl)) <= (Mr * depth) * Ml) by (apply abs_mul_le; assumption).
    assert (C3 : Z.abs ((ro + zr) * depth) <= Mr * depth) by (apply abs_mul_le; lia).
    assert (X0 : Z.abs P <= int_max 32) by (clear - BP HdB; lia).
    assert (X1 : Z.abs SL <= int_max 32) by (clear - BL D5; lia).
    assert (X2 : Z.abs SR <= int_max 32) by (clear - BR D5; lia).
    assert (X3 : Z.abs (SL * (ro + zr)) <= int_max 32) by (clear - C1 D1; lia).
    assert (X4 : Z.abs (P + SL * (ro + zr)) <= int_max 32) by (clear - B1 D1; lia).
    assert (X5 : Z.abs ((ro + zr) * depth) <= int_max 32) by (clear - C3 D2; lia).
    assert (X6 : Z.abs (SR + (ro + zr) * depth) <= int_max 32) by (clear - B2 D2; lia).
    assert (X7 : Z.abs ((SR + (ro + zr) * depth) * (lo + zl)) <= int_max 32) by (clear - C2 Hb; lia).
    assert (X8 : Z.abs (P + SL * (ro + zr) + (SR + (ro + zr) * depth) * (lo + zl)) <= int_max 32) by (clear - B3 Hb; lia).
    assert (X9 : Z.abs (ro + zr) <= int_max 32) by (clear - Br' D3; lia).
    assert (X10 : Z.abs (lo + zl) <= int_max 32) by (clear - Bl' D4; lia).
    clear - X0 X1 X2 X3 X4 X5 X6 X7 X8 X9 X10.
    apply fit32 in X0, X1, X2, X5, X6, X9, X10.
    rewrite (wrapS_small 32 P), (wrapS_small 32 SL), (wrapS_small 32 SR) by (assumption || discriminate).
    unfold unpack_at. rewrite !addc_fits by assumption. cbn [bind].
    rewrite MulAdd_fits by assumption. cbn [bind]. rewrite (norm_fits m 32 ((ro + zr) * depth)) by (assumption || discriminate). cbn [bind].
    rewrite (norm_fits m 32 (SR + (ro + zr) * depth)) by (assumption || discriminate). cbn [bind].
    rewrite MulAdd_fits by assumption. eexists. split; [reflexivity|]. split; [reflexivity|]. apply fit32. exact X8.
Qed.

(* ------------------------------------------------------------------ *)
(* One block: pack, compute, unpack *)
Definition is_packed (f : side_fmt) (p : side_params) (g : Z -> Z -> Z) (width depth : Z) (b : packed) : Prop :=
  byte_buffer (pk_data b) (sp_l2_width p * sp_l2_depth p) /\ allocated (pk_sums b) (sp_l2_width p) /\
  (forall w d, 0 <= w < width -> 0 <= d < sp_l2_depth p ->
     pk_data b (packed_pos f p w d) = Some (byte (pval f g width depth w d))) /\
  (forall w, 0 <= w < width ->
     pk_sums b w = Some (wrapS 32 (sumZ (fun d => g w d - sf_zp f) 0 depth))).
(* freshly reserved, or left over from an earlier use *)
Definition scratch_packed (p : side_params) (b : packed) : Prop :=
  byte_buffer (pk_data b) (sp_l2_width p * sp_l2_depth p) /\ allocated (pk_sums b) (sp_l2_width p).

Lemma new_packed_scratch p j1 j2 : scratch_packed p (new_packed p j1 j2).
Proof.
  split; intros a Ha; cbn; unfold local_buf.
  - replace ((0 <=? a) && (a <? sp_l2_width p * sp_l2_depth p)) with true by lia.
    eexists. split; [reflexivity|]. apply Z.mod_pos_bound. lia.
  - replace ((0 <=? a) && (a <? sp_l2_width p)) with true by lia. eauto.
Qed.
Lemma is_packed_scratch f p g w d b : is_packed f p g w d b -> scratch_packed p b.
Proof. intros (H1&H2&_). split; assumption. Qed.

Lemma pval_sum f g width depth w : 0 <= w < width ->
  sumZ (pval f g width depth w) 0 depth = sumZ (fun d => g w d - sf_zp f) 0 depth.
Proof.
  intros Hw. apply sumZ_ext. intros d Hd. unfold pval.
  replace ((0 <=? w) && (w <? width) && (0 <=? d) && (d <? depth)) with true by lia. reflexivity.
Qed.

Lemma holds_block n input M g r c nr nc B : holds_entries n input M g -> mm_block M r c nr nc = Some B ->
  holds_entries n input B (fun i j => g (r + i) (c + j)) /\ mm_rows B = nr /\ mm_cols B = nc /\ mm_order B = mm_order M.
Proof.
  intros H E. unfold mm_block, guard in E.
  destruct (0 <=? r) eqn:E1; [|discriminate]. destruct (r + nr <=? mm_rows M) eqn:E2; [|discriminate].
  destruct (0 <=? c) eqn:E3; [|discriminate]. destruct (c + nc <=? mm_cols M) eqn:E4; [|discriminate].
  cbn [bind] in E. injection E as <-. split; [|repeat split; reflexivity].
  intros i j Hi Hj. cbn [mm_rows mm_cols] in Hi, Hj.
  destruct (H (r + i) (c + j) ltac:(lia) ltac:(lia)) as [A B]. split; [|exact B]. rewrite <- A. f_equal.
  rewrite <- !mm_addr_entry. unfold mm_addr, mm_rows_stride, mm_cols_stride. cbn [mm_base mm_order mm_stride].
  destruct (mm_order M); ring.
Qed.
Lemma mm_block_ok M r c nr nc : 0 <= r -> r + nr <= mm_rows M -> 0 <= c -> c + nc <= mm_cols M ->
  exists B, mm_block M r c nr nc = Some B.
Proof.
  intros. unfold mm_block, guard. replace (0 <=? r) with true by lia. replace (r + nr <=? mm_rows M) with true by lia.
  replace (0 <=? c) with true by lia. replace (c + nc <=? mm_cols M) with true by lia. cbn [bind]. eauto.
Qed.
Lemma vec_block_ok v start len : 0 <= start -> start + len <= vec_size v ->
  exists w, vec_block v start len = Some w /\ (forall sh, has_shape v sh -> has_shape w sh) /\
    forall i, vec_get w i = vec_get v (start + i).
Proof.
  intros H1 H2. unfold vec_block, guard. replace (0 <=? start) with true by lia. replace (start + len <=? vec_size v) with true by lia.
  cbn [bind]. eexists. split; [reflexivity|]. split.
  - intros sh. destruct v; cbn; auto.
  - intros i. destruct v as [sh u|]; cbn; [|reflexivity]. rewrite Z.add_assoc. reflexivity.
Qed.

Lemma pipe_out_ty T p t : pipe_ty T p = Some t -> pipe_out p = t.
Proof.
  induction p as [|s q IH]; cbn [pipe_ty pipe_out]; intros E; [congruence|].
  destruct s; cbn [stage_ty] in E; try discriminate; try (apply IH; exact E);
    try (destruct T; try discriminate E; apply IH; exact E);
    try (destruct T; try discriminate E);
    try (match type of E with context [match ?v with VMap _ _ => _ | VDup _ _ _ => _ end] => destruct v; [apply IH; exact E|discriminate E] end);
    destruct q; try discriminate E; congruence.
Qed.
Lemma Unpack_spec o m0 k0 junk dst blk src src_map depth0 lsm rsm lo ro p (A : Z -> Z -> Z) (SL SR LO RO : Z -> Z) (out : Z -> Z -> Z) :
  0 <= bb_row blk -> 0 <= bb_rows blk -> bb_row blk + bb_rows blk <= mm_rows dst ->
  0 <= bb_col blk -> 0 <= bb_cols blk -> bb_col blk + bb_cols blk <= mm_cols dst ->
  mm_order src_map = ColMajor ->
  (forall r c, 0 <= r < bb_rows blk -> 0 <= c < bb_cols blk -> src (mm_addr src_map r c) = Some (A r c) /\ fits 32 (A r c)) ->
  has_shape lo VCol -> has_shape ro VRow ->
  (forall r, 0 <= r < bb_rows blk -> lsm r = Some (SL r) /\ fits 32 (SL r)) ->
  (forall c, 0 <= c < bb_cols blk -> rsm c = Some (SR c) /\ fits 32 (SR c)) ->
  (forall r, 0 <= r < bb_rows blk -> vec_get lo r = Some (LO r)) ->
  (forall c, 0 <= c < bb_cols blk -> vec_get ro c = Some (RO c)) ->
  match o with
  | None => True
  | Some T => pipe_ty T p <> None /\ (forall r, 0 <= r < bb_rows blk -> fits 32 (LO r)) /\ (forall c, 0 <= c < bb_cols blk -> fits 32 (RO c))
  end ->
  (forall r c, 0 <= r < bb_rows blk -> 0 <= c < bb_cols blk ->
     exists a, unpack_at m0 (sf_zp (kf_lhs k0)) (sf_zp (kf_rhs k0)) depth0 (A r c) (SL r) (SR c) (LO r) (RO c) = Some a /\
       pipe_at m0 p (bb_row blk + r) (bb_col blk + c) a = Some (out (bb_row blk + r) (bb_col blk + c)) /\
       match o with None => True | Some T => pipe_safe T m0 p (bb_row blk + r) (bb_col blk + c) a end) ->
  exists log, Unpack o m0 k0 junk dst blk src src_map depth0 lsm rsm lo ro p = Some log /\
    covers (ent out dst) (in_rect (bb_row blk) (bb_row blk + bb_rows blk) (bb_col blk) (bb_col blk + bb_cols blk)) log.
Proof.
  intros H1 H2 H3 H4 H5 H6 Hcm HA Hlo Hro HSL HSR HLO HRO Ho HU. unfold Unpack. destruct o as [T|].
  - destruct Ho as (Hty & FL & FR). destruct (pipe_ty T p) as [t|] eqn:E; [|congruence]. rewrite (pipe_out_ty T p t E).
    apply (UnpackResultV_spec T m0 k0 t junk dst blk src src_map depth0 lsm rsm lo ro p A SL SR LO RO out); try assumption.
    + intros r Hr. split; [apply HLO|apply FL]; exact Hr.
    + intros c Hc. split; [apply HRO|apply FR]; exact Hc.
  - apply (UnpackResult_spec m0 k0 junk dst blk src src_map depth0 lsm rsm lo ro p A SL SR LO RO out); try assumption.
    + intros r c Hr Hc. apply HA; assumption.
    + intros r Hr. apply HSL; assumption.
    + intros c Hc. apply HSR; assumption.
    + intros r c Hr Hc. destruct (HU r c Hr Hc) as (a & Ea & Ep & _). exists a. split; assumption.
Qed.

Section Block.
Variables (ok : Z -> Z -> Prop) (m : ovf) (K : kernel) (bp : block_params) (depth : Z).
Let k := k_fmt K.
Hypothesis Hk : kernel_fmt_ok k.
Hypothesis Hbp : bp_ok k depth bp.
Hypothesis Hdepth : 0 < depth.
Hypothesis HK : kernel_usable_on ok m K.
Hypothesis HKp : packs_correct m K.
Hypothesis Hok0 : ok 0 0.
Hypothesis Hm : m = Wrap \/ 255 * 255 * bp_l2_depth bp <= int_max 32.
Let spL := GetSideBlockParams Lhs bp.
Let spR := GetSideBlockParams Rhs bp.

Lemma Hm_pack : m = Wrap \/ 255 * bp_l2_depth bp <= int_max 32.
Proof. destruct Hm as [H|H]; [left; exact H|right]. pose proof (depth_le_l2 k depth bp (fun _ => 0) Hk Hbp). lia. Qed.

Lemma pack_lhs_block input M L r rs B b junk :
  holds_lhs (kf_lhs k) input M L -> mm_cols M = depth -> mm_block M r 0 rs depth = Some B ->
  0 < rs <= bp_l2_rows bp -> scratch_packed spL b ->
  exists b', PackLhs (k_pack K) m (kf_lhs k) (kf_reg k) junk spL input B b = Some b' /\
    is_packed (kf_lhs k) spL (fun w d => L (r + w) d) rs depth b'.
Proof.
  intros [HM HMo] HC EB Hrs [HD HS]. destruct (holds_block _ _ _ _ _ _ _ _ _ HM EB) as (HB0 & R1 & C1 & O1). rewrite <- O1 in HMo.
  pose proof (conj HB0 HMo : holds_lhs (kf_lhs k) input B _) as HB.
  destruct (PackLhs_spec (k_pack K) m k depth bp junk Hk Hbp Hdepth Hm_pack input B (fun w d => L (r + w) (0 + d)) b)
    as (b' & E & B1 & B2 & B3); try assumption; [exact (proj1 HKp)|lia|].
  exists b'. split; [exact E|]. rewrite R1 in B2, B3. split; [exact B1|]. split.
  { intros w Hw. rewrite B3 by exact Hw. eauto. }
  split.
  - intros w d Hw Hd. rewrite B2; [reflexivity| |exact Hd].
    pose proof (RoundUp_ge (kRows k) rs (kRows_pos k Hk)). lia.
  - intros w Hw. rewrite B3 by (cbn in *; lia). rewrite pval_sum by exact Hw. reflexivity.
Qed.
Lemma pack_rhs_block input M R c cs B b junk :
  holds_rhs (kf_rhs k) input M R -> mm_rows M = depth -> mm_block M 0 c depth cs = Some B ->
  0 < cs <= bp_l2_cols bp -> scratch_packed spR b ->
  exists b', PackRhs (k_pack K) m (kf_rhs k) (kf_reg k) junk spR input B b = Some b' /\
    is_packed (kf_rhs k) spR (fun w d => R d (c + w)) cs depth b'.
Proof.
  intros [HM HMo] HC EB Hcs [HD HS]. destruct (holds_block _ _ _ _ _ _ _ _ _ HM EB) as (HB0 & R1 & C1 & O1). rewrite <- O1 in HMo.
  pose proof (conj HB0 HMo : holds_rhs (kf_rhs k) input B _) as HB.
  destruct (PackRhs_spec (k_pack K) m k depth bp junk Hk Hbp Hdepth Hm_pack input B (fun d w => R (0 + d) (c + w)) b)
    as (b' & E & B1 & B2 & B3); try assumption; [exact (proj2 HKp)|lia|].
  exists b'. split; [exact E|]. rewrite C1 in B2, B3. split; [exact B1|]. split.
  { intros w Hw. rewrite B3 by exact Hw. eauto. }
  split.
  - intros w d Hw Hd. rewrite B2; [reflexivity| |exact Hd].
    pose proof (RoundUp_ge (kCols k) cs (kCols_pos k Hk)). lia.
  - intros w Hw. rewrite B3 by (cbn in *; lia). rewrite pval_sum by exact Hw. reflexivity.
Qed.

Lemma compute_block gL gR rs cs lhs rhs res :
  0 < rs <= bp_l2_rows bp -> 0 < cs <= bp_l2_cols bp ->
  (forall r d, 0 <= r < rs -> 0 <= d < depth -> in_min (kf_lhs k) <= gL r d <= in_min (kf_lhs k) + 255) ->
  (forall r c d, 0 <= r < rs -> 0 <= c < cs -> 0 <= d < depth -> ok (gL r d - sf_zp (kf_lhs k)) (gR c d - sf_zp (kf_rhs k))) ->
  (forall c d, 0 <= c < cs -> 0 <= d < depth -> in_min (kf_rhs k) <= gR c d <= in_min (kf_rhs k) + 255) ->
  is_packed (kf_lhs k) spL gL rs depth lhs -> is_packed (kf_rhs k) spR gR cs depth rhs ->
  allocated res (bp_l2_rows bp * bp_l2_cols bp) ->
  exists res', Compute K bp lhs rhs depth res = Some res' /\ allocated res' (bp_l2_rows bp * bp_l2_cols bp) /\
    forall r c, 0 <= r < rs -> 0 <= c < cs ->
      res' (r + c * bp_l2_rows bp) =
      Some (wrapS 32 (sumZ (fun d => (gL r d - sf_zp (kf_lhs k)) * (gR c d - sf_zp (kf_rhs k))) 0 depth)).
Proof.
  intros Hrs Hcs HgL HgO HgR (L1&L2&L3&L4) (R1&R2&R3&R4) Hres.
  destruct (depth'_facts K depth bp Hk Hbp) as (F1&F2&F3). fold k in F1, F2, F3.
  destruct (Compute_spec ok m K depth bp lhs rhs Hk Hbp Hdepth HK L1 R1) with (res := res) as (res' & E & HC); [|exact Hres|].
  { destruct Hm as [H|H]; [left; exact H|right]. unfold int_max in H. change (2 ^ (32 - 1) - 1) with (2 ^ 31 - 1) in H. exact H. }
  exists res'. split; [exact E|]. split.
  { intros a Ha. assert (Hl : 0 < bp_l2_rows bp) by (destruct Hbp as (?&_); assumption).
    destruct (HC (a mod bp_l2_rows bp) (a / bp_l2_rows bp)) as (v & Ev & _).
    - apply Z.mod_pos_bound. exact Hl.
    - split; [apply Z.div_pos; lia|]. apply Z.div_lt_upper_bound; lia.
    - exists v. rewrite <- Ev. f_equal. rewrite (Z.div_mod a (bp_l2_rows bp)) at 1 by lia. ring. }
  intros r c Hr Hc.
  assert (HL : forall d, 0 <= d < bp_l2_depth bp -> Lv K bp lhs r d = pval (kf_lhs k) gL rs depth r d).
  { intros d Hd. unfold Lv. fold k spL. rewrite L3 by assumption. cbn [getd]. apply interp_byte. apply pval_range. exact HgL. }
  assert (HR : forall d, 0 <= d < bp_l2_depth bp -> Rv K bp rhs c d = pval (kf_rhs k) gR cs depth c d).
  { intros d Hd. unfold Rv. fold k spR. rewrite R3 by assumption. cbn [getd]. apply interp_byte. apply pval_range. exact HgR. }
  destruct (HC r c ltac:(lia) ltac:(lia)) as (v & Ev & Hv). rewrite Ev. rewrite Hv; clear Hv.
  2:{ split.
      - fold k. intros d Hd. rewrite HL, HR by lia. unfold pval.
        destruct (Z.lt_ge_cases d depth) as [Ld|Gd].
        + replace ((0 <=? r) && (r <? rs) && (0 <=? d) && (d <? depth)) with true by lia.
          replace ((0 <=? c) && (c <? cs) && (0 <=? d) && (d <? depth)) with true by lia. apply HgO; lia.
        + replace ((0 <=? r) && (r <? rs) && (0 <=? d) && (d <? depth)) with false by lia.
          replace ((0 <=? c) && (c <? cs) && (0 <=? d) && (d <? depth)) with false by lia. exact Hok0.
      - fold k. intros d Hd. rewrite HL, HR by lia. unfold pval.
        replace ((0 <=? r) && (r <? rs) && (0 <=? d) && (d <? depth)) with false by lia.
        replace ((0 <=? c) && (c <? cs) && (0 <=? d) && (d <? depth)) with false by lia. split; reflexivity. }
  do 2 f_equal. unfold dot.
  rewrite (sumZ_split _ 0 depth) by (fold k; lia).
  match goal with |- _ + ?x = _ => assert (Hz : x = 0) end.
  { apply sumZ_zero. intros d Hd. fold k in Hd. rewrite HL by lia. unfold pval at 1.
    replace ((0 <=? r) && (r <? rs) && (0 <=? d) && (d <? depth)) with false by lia. ring. }
  rewrite Hz, Z.add_0_r. apply sumZ_ext. intros d Hd. rewrite HL, HR by lia. unfold pval.
  replace ((0 <=? r) && (r <? rs) && (0 <=? d) && (d <? depth)) with true by lia.
  replace ((0 <=? c) && (c <? cs) && (0 <=? d) && (d <? depth)) with true by lia. reflexivity.
Qed.

(* the whole block: rows r0..r0+rs, columns c0..c0+cs of the result *)
Variables (L R : Z -> Z -> Z) (LO RO : Z -> Z) (p : list stage) (result : matrix_map) (out : Z -> Z -> Z).
Variables (rows cols : Z) (lhs_offset rhs_offset : vec).
Hypothesis HL : forall r d, 0 <= r < rows -> 0 <= d < depth -> in_min (kf_lhs k) <= L r d <= in_min (kf_lhs k) + 255.
Hypothesis Hok : forall r c d, 0 <= r < rows -> 0 <= c < cols -> 0 <= d < depth -> ok (L r d - sf_zp (kf_lhs k)) (R d c - sf_zp (kf_rhs k)).
Hypothesis HR : forall d c, 0 <= d < depth -> 0 <= c < cols -> in_min (kf_rhs k) <= R d c <= in_min (kf_rhs k) + 255.
Hypothesis Hrows : mm_rows result = rows.
Hypothesis Hcols : mm_cols result = cols.
Hypothesis Hlsh : has_shape lhs_offset VCol.
Hypothesis Hrsh : has_shape rhs_offset VRow.
Hypothesis Hlsz : rows <= vec_size lhs_offset.
Hypothesis Hrsz : cols <= vec_size rhs_offset.
Hypothesis Hlo : forall r, 0 <= r < rows -> vec_get lhs_offset r = Some (LO r).
Hypothesis Hro : forall c, 0 <= c < cols -> vec_get rhs_offset c = Some (RO c).
Hypothesis Hms : m = Wrap \/ exists Ml Mr, 255 <= Ml /\ 255 <= Mr /\ Ml * Mr * bp_l2_depth bp <= int_max 32 /\
  forall r c, 0 <= r < rows -> 0 <= c < cols -> small (in_min (kf_lhs k)) (in_min (kf_rhs k)) Ml Mr (LO r) (RO c).
Hypothesis Hout : forall r c, 0 <= r < rows -> 0 <= c < cols ->
  pipe_at m p r c (wrapS 32 (offset_product L R LO RO depth r c)) = Some (out r c).
Hypothesis Hvec : vector_safe (k_out K) m p rows cols LO RO (offset_product L R LO RO depth).

Lemma zp_range f : 0 <= sf_zp f <= 128 /\ in_min f = 0 \/ sf_zp f = 0 /\ in_min f = -128.
Proof. unfold sf_zp, in_min. destruct (sf_kind f); lia. Qed.

Lemma gemm_block r0 rs c0 cs lhs rhs res junk :
  0 <= r0 -> 0 < rs <= bp_l2_rows bp -> r0 + rs <= rows -> 0 <= c0 -> 0 < cs <= bp_l2_cols bp -> c0 + cs <= cols ->
  is_packed (kf_lhs k) spL (fun w d => L (r0 + w) d) rs depth lhs ->
  is_packed (kf_rhs k) spR (fun w d => R d (c0 + w)) cs depth rhs ->
  allocated res (bp_l2_rows bp * bp_l2_cols bp) ->
  exists res' lo ro l, Compute K bp lhs rhs depth res = Some res' /\ allocated res' (bp_l2_rows bp * bp_l2_cols bp) /\
    vec_block lhs_offset r0 rs = Some lo /\ vec_block rhs_offset c0 cs = Some ro /\
    Unpack (k_out K) m k junk result (mk_bounds r0 c0 rs cs) res' (packed_result_map bp) depth (pk_sums lhs) (pk_sums rhs) lo ro p = Some l /\
    covers (ent out result) (in_rect r0 (r0 + rs) c0 (c0 + cs)) l.
Proof.
  intros Hr0 Hrs Hr1 Hc0 Hcs Hc1 PL PR Hres.
  assert (GL : forall r d, 0 <= r < rs -> 0 <= d < depth -> in_min (kf_lhs k) <= L (r0 + r) d <= in_min (kf_lhs k) + 255) by (intros; apply HL; lia).
  assert (GR : forall c d, 0 <= c < cs -> 0 <= d < depth -> in_min (kf_rhs k) <= R d (c0 + c) <= in_min (kf_rhs k) + 255) by (intros; apply HR; lia).
  assert (GO : forall r c d, 0 <= r < rs -> 0 <= c < cs -> 0 <= d < depth -> ok (L (r0 + r) d - sf_zp (kf_lhs k)) (R d (c0 + c) - sf_zp (kf_rhs k))) by (intros; apply Hok; lia).
  destruct (compute_block _ _ rs cs lhs rhs res Hrs Hcs GL GO GR PL PR Hres) as (res' & E & Hal & HC).
  destruct (vec_block_ok lhs_offset r0 rs Hr0 ltac:(lia)) as (lo & Elo & Slo & Glo).
  destruct (vec_block_ok rhs_offset c0 cs Hc0 ltac:(lia)) as (ro & Ero & Sro & Gro).
  exists res', lo, ro.
  pose proof PL as (_&_&_&PLs). pose proof PR as (_&_&_&PRs).
  destruct (Unpack_spec (k_out K) m k junk result (mk_bounds r0 c0 rs cs) res' (packed_result_map bp) depth (pk_sums lhs) (pk_sums rhs) lo ro p
    (fun r c => wrapS 32 (sumZ (fun d => (L (r0 + r) d - sf_zp (kf_lhs k)) * (R d (c0 + c) - sf_zp (kf_rhs k))) 0 depth))
    (fun r => wrapS 32 (sumZ (fun d => L (r0 + r) d - sf_zp (kf_lhs k)) 0 depth))
    (fun c => wrapS 32 (sumZ (fun d => R d (c0 + c) - sf_zp (kf_rhs k)) 0 depth))
    (fun r => LO (r0 + r)) (fun c => RO (c0 + c)) out) as (l & El & Hl); cbn [bb_row bb_col bb_rows bb_cols]; try lia; try reflexivity.
  - intros r c Hr Hc. split; [|apply wrapS_range; lia]. rewrite <- HC by assumption. f_equal. unfold mm_addr, packed_result_map, mm_rows_stride, mm_cols_stride.
    cbn [mm_base mm_order mm_stride]. ring.
  - apply Slo. exact Hlsh.
  - apply Sro. exact Hrsh.
  - intros r Hr. split; [apply PLs; exact Hr|apply wrapS_range; lia].
  - intros c Hc. split; [apply PRs; exact Hc|apply wrapS_range; lia].
  - intros r Hr. rewrite Glo. apply Hlo. lia.
  - intros c Hc. rewrite Gro. apply Hro. lia.
  - destruct (k_out K) as [T|]; [|exact I]. destruct Hvec as (V1 & V2 & V3 & _). split; [exact V1|].
    split; intros i Hi; [apply (V2 (r0 + i))|apply (V3 (c0 + i))]; lia.
  - intros r c Hr Hc.
    destruct (unpack_exact m (sf_zp (kf_lhs k)) (sf_zp (kf_rhs k)) (in_min (kf_lhs k)) (in_min (kf_rhs k)) depth (L (r0 + r)) (fun d => R d (c0 + c)) (LO (r0 + r)) (RO (c0 + c)))
      as (a & Ea & Ca & Ra).
    + exact Hdepth.
    + apply zp_range.
    + apply zp_range.
    + intros d Hd. split; [apply HL|apply HR]; lia.
    + destruct Hms as [->|(Ml & Mr & M1 & M2 & M3 & M4)]; [left; reflexivity|right]. exists Ml, Mr.
      split; [exact M1|]. split; [exact M2|]. split; [|apply M4; lia].
      pose proof (depth_le_l2 k depth bp (fun _ => 0) Hk Hbp) as Hle.
      apply Z.le_trans with (Ml * Mr * bp_l2_depth bp); [|exact M3]. apply Z.mul_le_mono_nonneg_l; [|exact Hle].
      apply Z.mul_nonneg_nonneg; lia.
    + assert (Eq : a = wrapS 32 (offset_product L R LO RO depth (r0 + r) (c0 + c))).
      { unfold offset_product. rewrite <- Ca. symmetry. apply wrapS_small; [lia|exact Ra]. }
      exists a. split; [exact Ea|]. rewrite <- Hout by lia. rewrite <- Eq. split; [reflexivity|].
      destruct (k_out K) as [T|]; [|exact I]. rewrite Eq. apply Hvec; lia.
  - exists l. cbn [bb_row bb_col bb_rows bb_cols] in Hl. repeat (split; [assumption|]). exact Hl.
Qed.
End Block.
