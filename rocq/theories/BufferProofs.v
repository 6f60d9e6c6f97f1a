(* BufferProofs.v: the sizes of the buffers of a GEMM, as pack.h 55-58 and unpack.h
   34-35 compute them in int, from the problem size *)
From Verif Require Import Base BaseLemmas CommonModel CommonProofs PackModel BlockIntModel BlockIntProofs AllocatorModel AllocatorSpec AllocatorProofs Props_Common.

Lemma quot_share a n d b : 0 < d <= n -> a <= b -> 0 <= b -> d * Z.quot a n <= b.
Proof.
  intros Hd Ha Hb. destruct (Z.le_gt_cases 0 a) as [H|H].
  - pose proof (Z.mul_quot_le a n H ltac:(lia)). pose proof (quot_le a n H ltac:(lia)) as [Hq _].
    assert (d * Z.quot a n <= n * Z.quot a n) by (apply Z.mul_le_mono_nonneg_r; lia). lia.
  - pose proof (Z.quot_opp_l (- a) n ltac:(lia)) as E. rewrite Z.opp_involutive in E.
    pose proof (quot_le (- a) n ltac:(lia) ltac:(lia)) as [Hq _]. revert E Hq. generalize (Z.quot a n) (Z.quot (- a) n). intros u v -> Hv.
    assert (0 <= d * v) by (apply Z.mul_nonneg_nonneg; lia). lia.
Qed.
Lemma share_up d r n kr b : 0 < d -> r <= n + kr - 1 -> d * n <= b + d -> r * d <= b + d * kr.
Proof. intros Hd Hr Hn. assert (d * r <= d * (n + kr - 1)) by (apply Z.mul_le_mono_nonneg_l; lia). lia. Qed.

Lemma l2_sizes k rows cols depth nt b2 rf x :
  kernel_fmt_ok k -> 0 < rows -> 0 < cols -> 0 < depth -> 0 < nt -> 0 <= b2 ->
  rf_mul rf (Z.quot b2 (RoundUp (kf_reg k) depth)) = Some x -> x <= Z.quot b2 (RoundUp (kf_reg k) depth) ->
  exists l2r l2c l2d, FindL2BlockSizes k rows cols depth nt b2 rf = Some (l2r, l2c, l2d) /\
    0 < l2d < depth + kf_reg k /\ 0 < l2c < cols + kCols k /\ l2c * l2d <= b2 + l2d * kCols k /\
    0 < l2r < rows + 2 * kRows k /\
    (rf_is_one rf = false -> l2r * l2d <= b2 + l2d * kRows k /\ l2r * l2c <= b2 + l2c * kRows k).
Proof.
  intros Hk Hr Hc Hd Hnt Hb2 Hx Hxle.
  pose proof (kRows_pos k Hk) as HkR. pose proof (kCols_pos k Hk) as HkC.
  assert (Hreg : 0 < kf_reg k) by (destruct Hk as (_ & _ & _ & ? & _); assumption). clear Hk.
  unfold FindL2BlockSizes. pose proof (RoundUp_ge (kf_reg k) depth Hreg) as HD.
  set (l2d := RoundUp (kf_reg k) depth) in *.
  unfold cdiv at 1. replace (nt =? 0) with false by lia. cbn [bind].
  pose proof (RoundUp_ge (kRows k) rows HkR) as Hrr.
  assert (Hptr : 1 <= Z.max 1 (Z.quot (RoundUp (kRows k) rows) nt) <= RoundUp (kRows k) rows) by (apply max_quot_le; lia).
  set (ptr := Z.max 1 (Z.quot (RoundUp (kRows k) rows) nt)) in *. clearbody ptr.
  unfold cdiv at 1. replace (l2d =? 0) with false by lia. cbn [bind]. rewrite Hx. cbn [bind].
  assert (Hq' : l2d * Z.quot b2 l2d <= b2) by (apply Z.mul_quot_le; lia).
  assert (Hmc : l2d * Z.max 1 x <= b2 + l2d) by (apply (times_max l2d x (Z.quot b2 l2d)); [lia|exact Hxle|exact Hq'|exact Hb2]).
  clear Hx Hxle Hq'. assert (Hmc1 : 1 <= Z.max 1 x) by lia. set (mc := Z.max 1 x) in *. clearbody mc.
  pose proof (CeilQuotient_pos cols mc Hc ltac:(lia)) as Hb.
  assert (Hcm : CeilQuotient cols (Z.max 1 (CeilQuotient cols mc)) <= mc) by (apply even_blocks; lia).
  pose proof (CeilQuotient_pos cols (Z.max 1 (CeilQuotient cols mc)) Hc ltac:(lia)) as Hcc.
  set (cc := CeilQuotient cols (Z.max 1 (CeilQuotient cols mc))) in *. clearbody cc. clear Hb.
  pose proof (RoundUp_ge (kCols k) cc HkC) as Hl2c. set (l2c := RoundUp (kCols k) cc) in *. clearbody l2c l2d.
  assert (Hcd : l2c * l2d <= b2 + l2d * kCols k) by (apply (share_up l2d l2c mc); lia).
  destruct (rf_is_one rf).
  - pose proof (RoundUp_ge (kRows k) ptr HkR). do 3 eexists. split; [reflexivity|].
    repeat (split; [lia|]). discriminate.
  - assert (0 < l2d * l2c) by (apply Z.mul_pos_pos; lia).
    assert (Hn : l2d + 4 * l2c <= nt * (l2d + 4 * l2c)).
    { assert (1 * (l2d + 4 * l2c) <= nt * (l2d + 4 * l2c)) by (apply Z.mul_le_mono_nonneg_r; lia). lia. }
    set (n := nt * (l2d + 4 * l2c)) in *. clearbody n.
    unfold cdiv. replace (n =? 0) with false by lia. cbn [bind].
    assert (S1 : l2d * Z.max 1 (Z.quot (b2 - l2d * l2c) n) <= b2 + l2d).
    { apply (times_max l2d _ (Z.quot (b2 - l2d * l2c) n)); [lia|lia| |lia]. apply quot_share; lia. }
    assert (S2 : l2c * Z.max 1 (Z.quot (b2 - l2d * l2c) n) <= b2 + l2c).
    { apply (times_max l2c _ (Z.quot (b2 - l2d * l2c) n)); [lia|lia| |lia]. apply quot_share; lia. }
    assert (S3 : 1 <= Z.max 1 (Z.quot (b2 - l2d * l2c) n)) by (apply Z.le_max_l).
    set (mr := Z.max 1 (Z.quot (b2 - l2d * l2c) n)) in *. clearbody mr.
    pose proof (CeilQuotient_pos ptr mr ltac:(lia) ltac:(lia)) as Hb.
    assert (Hrm : CeilQuotient ptr (Z.max 1 (CeilQuotient ptr mr)) <= mr) by (apply even_blocks; lia).
    pose proof (CeilQuotient_pos ptr (Z.max 1 (CeilQuotient ptr mr)) ltac:(lia) ltac:(lia)) as Hcr.
    set (cr := CeilQuotient ptr (Z.max 1 (CeilQuotient ptr mr))) in *. clearbody cr.
    pose proof (RoundUp_ge (kRows k) cr HkR) as Hl2r.
    do 3 eexists. split; [reflexivity|]. set (l2r := RoundUp (kRows k) cr) in *. clearbody l2r.
    repeat (split; [lia|]). intros _. split; [apply (share_up l2d l2r mr)|apply (share_up l2c l2r mr)]; lia.
Qed.

Lemma buffers_fit k rows cols depth nt t x :
  kernel_fmt_ok k -> 0 < rows -> 0 < cols -> 0 < depth -> 0 < nt -> 0 <= t_l2_bytes t ->
  rf_mul (t_factor t) (Z.quot (t_l2_bytes t) (RoundUp (kf_reg k) depth)) = Some x ->
  x <= Z.quot (t_l2_bytes t) (RoundUp (kf_reg k) depth) ->
  rows + 2 * kRows k < 2 ^ 31 -> cols + kCols k < 2 ^ 31 ->
  kCols k * (depth + kf_reg k) + t_l2_bytes t < 2 ^ 31 ->
  (if rf_is_one (t_factor t)
   then (rows + 2 * kRows k) * (depth + kf_reg k) < 2 ^ 31 /\ (rows + 2 * kRows k) * (cols + kCols k) < 2 ^ 31
   else kRows k * (depth + kf_reg k) + t_l2_bytes t < 2 ^ 31 /\ kRows k * (cols + kCols k) + t_l2_bytes t < 2 ^ 31) ->
  exists bp, BlockParams_Init k rows cols depth nt t = Some bp /\ fits_int bp.
Proof.
  intros Hk Hr Hc Hd Hnt Hb2 Hx Hxle Br Bc Bd Bf.
  destruct (BlockParams_Init_ok k rows cols depth nt t x Hk Hr Hc Hd Hnt Hx) as (bp & E & _). exists bp. split; [exact E|].
  destruct (l2_sizes k rows cols depth nt (t_l2_bytes t) (t_factor t) x Hk Hr Hc Hd Hnt Hb2 Hx Hxle)
    as (l2r & l2c & l2d & E2 & H1 & H2 & H3 & H4 & H5).
  pose proof (kRows_pos k Hk) as HkR. pose proof (kCols_pos k Hk) as HkC.
  unfold BlockParams_Init in E. rewrite E2 in E. cbn [bind] in E. clear E2 Hx Hxle Hk.
  destruct (FindL1BlockSizes k l2r l2c l2d (t_l1_bytes t)) as [[[a b] c]|]; [|discriminate]. cbn [bind] in E. injection E as <-.
  unfold fits_int. cbn [bp_l2_rows bp_l2_cols bp_l2_depth].
  assert (P1 : l2d * kCols k <= (depth + kf_reg k) * kCols k) by (apply Z.mul_le_mono_nonneg_r; lia).
  split; [lia|]. split; [lia|]. split; [lia|]. split; [|split; [lia|]].
  - destruct (rf_is_one (t_factor t)).
    + assert (l2r * l2d <= (rows + 2 * kRows k) * (depth + kf_reg k)) by (apply Z.mul_le_mono_nonneg; lia). lia.
    + destruct (H5 eq_refl) as [H6 _]. assert (l2d * kRows k <= (depth + kf_reg k) * kRows k) by (apply Z.mul_le_mono_nonneg_r; lia). lia.
  - destruct (rf_is_one (t_factor t)).
    + assert (l2r * l2c <= (rows + 2 * kRows k) * (cols + kCols k)) by (apply Z.mul_le_mono_nonneg; lia). lia.
    + destruct (H5 eq_refl) as [_ H6]. assert (l2c * kRows k <= (cols + kCols k) * kRows k) by (apply Z.mul_le_mono_nonneg_r; lia). lia.
Qed.

(* common.h 72-73 and 97: x86-64 *)
Definition x86_tuning : tuning :=
  {| t_l1_bytes := 32768; t_l2_bytes := 4194304; t_factor := {| rf_mul := fun x => Some x; rf_is_one := true |} |}.
(* the requests with their sizes computed in int (wrapping around) and converted to
   size_t: pack.h 56-58, unpack.h 34-35 *)
Definition requests_int (reqs : list (type_id * Z)) : list (type_id * Z) :=
  map (fun q => (fst q, wrapU 64 (wrapS 32 (snd q)))) reqs.
Lemma size_int n : 0 <= n < 2 ^ 31 -> wrapU 64 (wrapS 32 n) = n.
Proof.
  intros H. rewrite wrapS_small; [|lia|change (int_min 32) with (- 2147483648); change (int_max 32) with 2147483647; change (2 ^ 31) with 2147483648 in H; lia].
  unfold wrapU. apply Z.mod_small. change (2 ^ 64) with 18446744073709551616. change (2 ^ 31) with 2147483648 in H. lia.
Qed.
Lemma requests_int_same bp reqs : fits_int bp -> In reqs [single_thread_requests bp; master_requests bp; task_requests bp] ->
  requests_int reqs = reqs.
Proof.
  intros (H1 & H2 & H3 & H4 & H5 & H6) Hin.
  pose proof (size_int _ H1) as S1. pose proof (size_int _ H2) as S2.
  pose proof (size_int (bp_l2_rows bp * bp_l2_depth bp) (conj (Z.mul_nonneg_nonneg _ _ (proj1 H1) H3) H4)) as S3.
  pose proof (size_int (bp_l2_cols bp * bp_l2_depth bp) (conj (Z.mul_nonneg_nonneg _ _ (proj1 H2) H3) H5)) as S4.
  pose proof (size_int (bp_l2_rows bp * bp_l2_cols bp) (conj (Z.mul_nonneg_nonneg _ _ (proj1 H1) (proj1 H2)) H6)) as S5.
  destruct Hin as [<-|[<-|[<-|[]]]];
    unfold requests_int, single_thread_requests, master_requests, task_requests, packed_side_requests, packed_result_requests;
    cbn [GetSideBlockParams sp_l2_width sp_l2_depth app map fst snd]; rewrite ?S1, ?S2, ?S3, ?S4, ?S5; reflexivity.
Qed.
Lemma sized_buffers k rows cols depth nt t x reqs_of stale g a os :
  kernel_fmt_ok k -> 0 < rows -> 0 < cols -> 0 < depth -> 0 < nt -> 0 <= t_l2_bytes t ->
  rf_mul (t_factor t) (Z.quot (t_l2_bytes t) (RoundUp (kf_reg k) depth)) = Some x ->
  x <= Z.quot (t_l2_bytes t) (RoundUp (kf_reg k) depth) ->
  rows + 2 * kRows k < 2 ^ 31 -> cols + kCols k < 2 ^ 31 ->
  kCols k * (depth + kf_reg k) + t_l2_bytes t < 2 ^ 31 ->
  (if rf_is_one (t_factor t)
   then (rows + 2 * kRows k) * (depth + kf_reg k) < 2 ^ 31 /\ (rows + 2 * kRows k) * (cols + kCols k) < 2 ^ 31
   else kRows k * (depth + kf_reg k) + t_l2_bytes t < 2 ^ 31 /\ kRows k * (cols + kCols k) + t_l2_bytes t < 2 ^ 31) ->
  In reqs_of [single_thread_requests; master_requests; task_requests] ->
  history [] stale g a -> a_committed a = false -> os_sound os -> os_never_fails os (2 ^ 63) ->
  exists bp hs a1 a2 addr, BlockParams_Init k rows cols depth nt t = Some bp /\
    reserve_all (requests_int (reqs_of bp)) a = Some (hs, a1) /\ Commit os a1 = Some a2 /\ length hs = length (reqs_of bp) /\
    laid_out a2 (map (fun x => (fst x, fst (snd x), snd (snd x))) (combine hs (reqs_of bp))) addr.
Proof.
  intros Hk Hr Hc Hd Hnt Hb2 Hx Hxle Br Bc Bd Bf Hin Hh Ec Hos Hnf.
  destruct (buffers_fit k rows cols depth nt t x Hk Hr Hc Hd Hnt Hb2 Hx Hxle Br Bc Bd Bf) as (bp & E & F).
  assert (Hin' : In (reqs_of bp) [single_thread_requests bp; master_requests bp; task_requests bp]).
  { destruct Hin as [<-|[<-|[<-|[]]]]; cbn [In]; tauto. }
  destruct (gemm_buffers bp (reqs_of bp) stale g a os F Hin' Hh Ec Hos Hnf) as (hs & a1 & a2 & addr & R1 & R2 & R3 & R4).
  exists bp, hs, a1, a2, addr. split; [exact E|]. rewrite !(requests_int_same bp _ F Hin'). auto.
Qed.

Lemma x86_buffer_refuted : exists rows cols depth bp,
  0 < rows <= 50000 /\ 0 < cols <= 4 /\ 0 < depth <= 50000 /\
  BlockParams_Init_int Trap fmt_12x4 rows cols depth 1 x86_tuning = Some bp /\
  norm Trap 32 (bp_l2_rows bp * bp_l2_depth bp) = None /\
  forall os, exists hs a1 a2, reserve_all (requests_int (single_thread_requests bp)) new_alloc = Some (hs, a1) /\
    Commit os a1 = Some a2 /\ a_size a2 = 0.
Proof.
  exists 50000, 4, 50000. eexists. split; [lia|]. split; [lia|]. split; [lia|].
  split; [vm_compute; reflexivity|]. split; [vm_compute; reflexivity|].
  intros os. eexists _, _, _. split; [vm_compute; reflexivity|]. split; [cbv -[Z.eqb]; reflexivity|reflexivity].
Qed.

(* pack.h 63-67 in int arithmetic: PackedSideBlock::seek_run *)
Definition run_pos_int (m : ovf) (p : side_params) (start_width start_depth : Z) : option Z :=
  let* rest := norm m 32 (sp_l2_depth p - start_depth) in
  let kernel_run_depth := Z.min (sp_l1_depth p) rest in
  let* a := norm m 32 (sp_l2_width p * start_depth) in
  let* b := norm m 32 (start_width * kernel_run_depth) in
  norm m 32 (a + b).
(* map.h 62-64 in int arithmetic, for the column-major map of unpack.h 40-44: what is
   added to data_, first for the row and then for the column *)
Definition result_offset_int (m : ovf) (bp : block_params) (row col : Z) : option Z :=
  let* a := norm m 32 (row * 1) in
  let* b := norm m 32 (col * bp_l2_rows bp) in
  Some (a + b).

Lemma run_bounds W D l sw sd kw : 0 < l -> 0 <= sw -> 0 <= kw -> sw + kw <= W -> 0 <= sd <= D ->
  0 <= W * sd /\ 0 <= sw * Z.min l (D - sd) /\ 0 <= kw * Z.min l (D - sd) /\
  W * sd + sw * Z.min l (D - sd) + kw * Z.min l (D - sd) <= W * D.
Proof.
  intros Hl Hs Hk Hw Hd. assert (Hm : 0 <= Z.min l (D - sd) <= D - sd) by lia.
  revert Hm. generalize (Z.min l (D - sd)). intros m Hm. split; [nia|]. split; [nia|]. split; [nia|].
  assert ((sw + kw) * m <= W * (D - sd)) by (apply Z.mul_le_mono_nonneg; lia). lia.
Qed.
Lemma int32_fits m z : 0 <= z < 2 ^ 31 -> norm m 32 z = Some z.
Proof.
  intros H. apply norm_fits; [lia|]. change (int_min 32) with (- 2147483648). change (int_max 32) with 2147483647.
  change (2 ^ 31) with 2147483648 in H. lia.
Qed.
Lemma run_pos_fits m W D l l1w sw sd : 0 < W -> 0 < l -> 0 <= sw <= W -> 0 <= sd <= D -> W * D < 2 ^ 31 ->
  run_pos_int m {| sp_l1_width := l1w; sp_l1_depth := l; sp_l2_width := W; sp_l2_depth := D |} sw sd
  = Some (W * sd + sw * Z.min l (D - sd)).
Proof.
  intros HW Hl Hs Hd B. destruct (run_bounds W D l sw sd 0 Hl ltac:(lia) ltac:(lia) ltac:(lia) Hd) as (H1 & H2 & _ & H4).
  rewrite Z.mul_0_l, Z.add_0_r in H4. assert (D <= W * D) by nia.
  unfold run_pos_int. cbn [sp_l1_depth sp_l2_width sp_l2_depth].
  rewrite (int32_fits m (D - sd)) by lia. cbn [bind]. cbn zeta. revert H2 H4. generalize (sw * Z.min l (D - sd)). intros v H2 H4.
  rewrite (int32_fits m (W * sd)) by lia. cbn [bind]. rewrite (int32_fits m v) by lia. cbn [bind]. apply int32_fits. lia.
Qed.
Lemma positions_fit k rows cols depth nt t x bp m :
  kernel_fmt_ok k -> 0 < rows -> 0 < cols -> 0 < depth -> 0 < nt -> 0 <= t_l2_bytes t ->
  rf_mul (t_factor t) (Z.quot (t_l2_bytes t) (RoundUp (kf_reg k) depth)) = Some x ->
  x <= Z.quot (t_l2_bytes t) (RoundUp (kf_reg k) depth) ->
  rows + 2 * kRows k < 2 ^ 31 -> cols + kCols k < 2 ^ 31 ->
  kCols k * (depth + kf_reg k) + t_l2_bytes t < 2 ^ 31 ->
  (if rf_is_one (t_factor t)
   then (rows + 2 * kRows k) * (depth + kf_reg k) < 2 ^ 31 /\ (rows + 2 * kRows k) * (cols + kCols k) < 2 ^ 31
   else kRows k * (depth + kf_reg k) + t_l2_bytes t < 2 ^ 31 /\ kRows k * (cols + kCols k) + t_l2_bytes t < 2 ^ 31) ->
  BlockParams_Init k rows cols depth nt t = Some bp ->
  (forall s start_width width start_depth,
     let p := GetSideBlockParams s bp in
     0 <= start_width -> 0 <= width -> start_width + width <= sp_l2_width p -> 0 <= start_depth <= sp_l2_depth p ->
     exists pos, run_pos_int m p start_width start_depth = Some pos /\ pos = run_pos p start_width start_depth /\
       0 <= pos /\ pos + width * Z.min (sp_l1_depth p) (sp_l2_depth p - start_depth) <= sp_l2_width p * sp_l2_depth p) /\
  (forall row col, 0 <= row < bp_l2_rows bp -> 0 <= col < bp_l2_cols bp ->
     exists i, result_offset_int m bp row col = Some i /\ i = row + col * bp_l2_rows bp /\
       0 <= i < bp_l2_rows bp * bp_l2_cols bp).
Proof.
  intros Hk Hr Hc Hd Hnt Hb2 Hx Hxle Br Bc Bd Bf E.
  destruct (buffers_fit k rows cols depth nt t x Hk Hr Hc Hd Hnt Hb2 Hx Hxle Br Bc Bd Bf) as (bp' & E' & F).
  rewrite E in E'. injection E' as <-. destruct F as (F1 & F2 & F3 & F4 & F5 & F6).
  destruct (block_params_full k rows cols depth nt t x Hk Hr Hc Hd Hnt Hx) as (bp' & E' & (P1 & P2 & P3) & (_ & _ & P4) & _).
  rewrite E in E'. injection E' as <-.
  clear - F1 F2 F3 F4 F5 F6 P1 P2 P3 P4. split.
  - intros s sw w sd p H1 H2 H3 H4. subst p.
    assert (HW : 0 < sp_l2_width (GetSideBlockParams s bp)) by (destruct s; assumption).
    assert (HF : sp_l2_width (GetSideBlockParams s bp) * sp_l2_depth (GetSideBlockParams s bp) < 2 ^ 31) by (destruct s; assumption).
    assert (Hl : 0 < sp_l1_depth (GetSideBlockParams s bp)) by (destruct s; cbn; lia).
    destruct (GetSideBlockParams s bp) as [l1w l W D]. cbn [sp_l1_depth sp_l2_width sp_l2_depth] in *.
    destruct (run_bounds W D l sw sd w Hl H1 H2 H3 H4) as (B1 & B2 & B3 & B4).
    exists (W * sd + sw * Z.min l (D - sd)). split; [apply run_pos_fits; lia|]. split; [reflexivity|]. split; [lia|exact B4].
  - intros r c H1 H2. exists (r + c * bp_l2_rows bp).
    assert (0 <= c * bp_l2_rows bp /\ r + c * bp_l2_rows bp < bp_l2_rows bp * bp_l2_cols bp) by nia.
    unfold result_offset_int. rewrite (int32_fits m (r * 1)) by lia. cbn [bind]. rewrite (int32_fits m (c * _)) by lia. cbn [bind]. rewrite Z.mul_1_r. repeat split; lia.
Qed.
