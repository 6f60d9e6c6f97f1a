From Coq Require Import Permutation.
From Verif Require Import Base BaseLemmas CommonModel CommonProofs PackModel PackProofs PackProofs2 PackProofs3 GemmSpec PackProofs4
  FixedPointModel ComputeModel KernelSpec ComputeProofs OutputModel OutputSpec OutputProofs UnpackModel UnpackProofs GemmModel GemmContract GemmProofs.

Lemma is_packed_ext f p g g' width depth b :
  (forall w d, 0 <= w < width -> 0 <= d < depth -> g w d = g' w d) ->
  is_packed f p g width depth b -> is_packed f p g' width depth b.
Proof.
  intros H (H1&H2&H3&H4). split; [exact H1|]. split; [exact H2|]. split.
  - intros w d Hw Hd. rewrite H3 by assumption. do 2 f_equal. unfold pval.
    destruct ((0 <=? w) && (w <? width) && (0 <=? d) && (d <? depth)) eqn:E; [|reflexivity].
    rewrite H by lia. reflexivity.
  - intros w Hw. rewrite H4 by assumption. do 2 f_equal. apply sumZ_ext. intros d Hd. rewrite H by lia. reflexivity.
Qed.

Lemma mm_block_self M : mm_block M 0 0 (mm_rows M) (mm_cols M) = Some M.
Proof.
  unfold mm_block, guard. replace (0 <=? 0) with true by lia. replace (0 + mm_rows M <=? mm_rows M) with true by lia.
  replace (0 + mm_cols M <=? mm_cols M) with true by lia. cbn [bind]. unfold mm_addr. rewrite !Z.mul_0_l, !Z.add_0_r.
  destruct M; reflexivity.
Qed.

Lemma new_result_alloc bp j : allocated (new_result bp j) (bp_l2_rows bp * bp_l2_cols bp).
Proof. intros a Ha. unfold new_result, local_buf. replace ((0 <=? a) && (a <? bp_l2_rows bp * bp_l2_cols bp)) with true by lia. eauto. Qed.

Lemma tuning_init k rows cols depth nt t : kernel_fmt_ok k -> 0 < rows -> 0 < cols -> 0 < depth -> 0 < nt -> tuning_ok t ->
  exists bp, BlockParams_Init k rows cols depth nt t = Some bp /\ bp_ok k depth bp.
Proof.
  intros Hk Hr Hc Hd Hn [B H].
  assert (Hreg : 0 < kf_reg k) by (destruct Hk as (_&_&_&?&_); assumption).
  pose proof (RoundUp_ge (kf_reg k) depth Hreg) as Hru.
  destruct (rf_mul (t_factor t) (Z.quot (t_l2_bytes t) (RoundUp (kf_reg k) depth))) as [x|] eqn:E.
  - exact (BlockParams_Init_ok k rows cols depth nt t x Hk Hr Hc Hd Hn E).
  - exfalso. apply (H (Z.quot (t_l2_bytes t) (RoundUp (kf_reg k) depth))); [|exact E].
    pose proof (Z.quot_le_mono (t_l2_bytes t) (2 ^ 31 - 1) (RoundUp (kf_reg k) depth) ltac:(lia) ltac:(lia)).
    pose proof (Z.quot_le_mono (- 2 ^ 31) (t_l2_bytes t) (RoundUp (kf_reg k) depth) ltac:(lia) ltac:(lia)).
    pose proof (Z.quot_le_upper_bound (2 ^ 31 - 1) (RoundUp (kf_reg k) depth) (2 ^ 31 - 1) ltac:(lia)).
    assert (2 ^ 31 - 1 <= RoundUp (kf_reg k) depth * (2 ^ 31 - 1)) by (clear - Hru Hd; nia).
    pose proof (Z.quot_le_lower_bound (- 2 ^ 31) (RoundUp (kf_reg k) depth) (- 2 ^ 31) ltac:(lia)).
    assert (RoundUp (kf_reg k) depth * - 2 ^ 31 <= - 2 ^ 31) by (clear - Hru Hd; nia). lia.
Qed.

Section Gemm.
Variables (ok : Z -> Z -> Prop) (m : ovf) (K : kernel) (lhs rhs : operand) (result : matrix_map) (lo ro : vec) (p : list stage).
Variables (L R : Z -> Z -> Z) (LO RO : Z -> Z) (out : Z -> Z -> Z).
Let k := k_fmt K.
Hypothesis Hk : kernel_fmt_ok k.
Hypothesis HK : kernel_usable_on ok m K.
Hypothesis HKp : packs_correct m K.
Hypothesis Hok0 : ok 0 0.
Hypothesis HP : gemm_problem m K (op_mem lhs) (op_map lhs) (op_mem rhs) (op_map rhs) result lo ro p L R LO RO out.
Let rows := mm_rows result.
Let cols := mm_cols result.
Let depth := mm_cols (op_map lhs).
Hypothesis Hok : forall r c d, 0 <= r < rows -> 0 <= c < cols -> 0 <= d < depth -> ok (L r d - sf_zp (kf_lhs k)) (R d c - sf_zp (kf_rhs k)).

Lemma col_has_shape v n f : col_vector v n f -> has_shape v VCol /\ n <= vec_size v /\ forall i, 0 <= i < n -> vec_get v i = Some (f i).
Proof. intros (H1&H2&H3). split; [exact H1|]. split; [exact H2|]. intros i Hi. rewrite <- H3 by exact Hi. destruct v as [sh u|]; [subst sh|]; reflexivity. Qed.
Lemma row_has_shape v n f : row_vector v n f -> has_shape v VRow /\ n <= vec_size v /\ forall i, 0 <= i < n -> vec_get v i = Some (f i).
Proof. intros (H1&H2&H3). split; [exact H1|]. split; [exact H2|]. intros i Hi. rewrite <- H3 by exact Hi. destruct v as [sh u|]; [subst sh|]; reflexivity. Qed.

Section Bp.
Variable bp : block_params.
Hypothesis Hbp : bp_ok k depth bp.

Lemma arith_l2 : m = Wrap \/ exists Ml Mr, 255 <= Ml /\ 255 <= Mr /\ Ml * Mr * bp_l2_depth bp <= int_max 32 /\
  forall r c, 0 <= r < rows -> 0 <= c < cols -> small (in_min (kf_lhs k)) (in_min (kf_rhs k)) Ml Mr (LO r) (RO c).
Proof.
  destruct (gp_arith _ _ _ _ _ _ _ _ _ _ _ _ _ _ _ HP) as [H|(Ml & Mr & H1 & H2 & H3 & H4 & H5)]; [left; exact H|right].
  exists Ml, Mr. split; [exact H1|]. split; [exact H2|]. split.
  - pose proof Hbp as (_&_&_&_&_&_&_&_&_&_&_&H7&_).
    assert (Hreg : 0 < kf_reg k) by (destruct Hk as (_&_&_&?&_); assumption).
    pose proof (RoundUp_ge (kf_reg k) depth Hreg) as Hru. rewrite H7. fold depth in H3.
    apply Z.le_trans with (Ml * Mr * (depth + kf_reg k - 1)); [|exact H3].
    apply Z.mul_le_mono_nonneg_l; [apply Z.mul_nonneg_nonneg; lia|lia].
  - intros r c Hr Hc. unfold small. unfold k. rewrite (gp_input _ _ _ _ _ _ _ _ _ _ _ _ _ _ _ HP). split; [apply H4|apply H5]; assumption.
Qed.
Lemma arith_255 : m = Wrap \/ 255 * 255 * bp_l2_depth bp <= int_max 32.
Proof.
  destruct arith_l2 as [H|(Ml & Mr & H1 & H2 & H3 & _)]; [left; exact H|right].
  assert (Hl : 1 <= bp_l2_depth bp) by (destruct Hbp as (_&_&?&_); lia).
  destruct (bound_chain Ml Mr (bp_l2_depth bp) (int_max 32) H1 H2 Hl H3) as (_&A&_). exact A.
Qed.

Lemma Hdepth : 0 < depth.
Proof. destruct (gp_pos _ _ _ _ _ _ _ _ _ _ _ _ _ _ _ HP) as (_&_&?). assumption. Qed.

(* one block of the result, in the form needed by the loops *)
Lemma do_block r0 rs c0 cs plhs prhs res junk :
  0 <= r0 -> 0 < rs <= bp_l2_rows bp -> r0 + rs <= rows -> 0 <= c0 -> 0 < cs <= bp_l2_cols bp -> c0 + cs <= cols ->
  is_packed (kf_lhs k) (GetSideBlockParams Lhs bp) (fun w d => L (r0 + w) d) rs depth plhs ->
  is_packed (kf_rhs k) (GetSideBlockParams Rhs bp) (fun w d => R d (c0 + w)) cs depth prhs ->
  allocated res (bp_l2_rows bp * bp_l2_cols bp) ->
  exists res' lo' ro' l, Compute K bp plhs prhs depth res = Some res' /\ allocated res' (bp_l2_rows bp * bp_l2_cols bp) /\
    vec_block lo r0 rs = Some lo' /\ vec_block ro c0 cs = Some ro' /\
    Unpack (k_out K) m k junk result (mk_bounds r0 c0 rs cs) res' (packed_result_map bp) depth (pk_sums plhs) (pk_sums prhs) lo' ro' p = Some l /\
    covers (ent out result) (in_rect r0 (r0 + rs) c0 (c0 + cs)) l.
Proof.
  destruct HP as [P1 P2 P3 P4 P5 P6 P7 P8 P9 P10 P11].
  destruct (col_has_shape _ _ _ P7) as (S1&S2&S3). destruct (row_has_shape _ _ _ P8) as (T1&T2&T3).
  apply (gemm_block ok m K bp depth Hk Hbp Hdepth HK HKp Hok0 arith_255 L R LO RO p result out rows cols lo ro); try assumption; try reflexivity.
  - intros r d Hr Hd. apply (proj1 P5); [rewrite P1|]; assumption.
  - intros d c Hd Hc. apply (proj1 P6); [rewrite <- P3|rewrite P2]; assumption.
  - exact arith_l2.
Qed.
End Bp.


Theorem SingleThreadGemm_spec t sc : tuning_ok t -> cols <= rows ->
  exists log, SingleThreadGemm m K t sc lhs rhs result lo ro p = Some log /\
    covers (ent out result) (in_rect 0 rows 0 cols) log.
Proof.
  intros Ht Hcr. pose proof Hdepth as Hd. pose proof HP as [P1 P2 P3 P4 P5 P6 P7 P8 P9 P10 P11].
  destruct P4 as (Hr&Hc&_). fold rows in Hr. fold cols in Hc.
  destruct (tuning_init k rows cols depth 1 t Hk Hr Hc Hd ltac:(lia) Ht) as (bp & Ebp & Hbp).
  pose proof Hbp as (B1&B2&B3&_).
  unfold SingleThreadGemm. fold k rows cols depth.
  replace (depth =? mm_rows (op_map rhs)) with true by (unfold depth; lia).
  replace (0 <? rows) with true by lia. replace (0 <? cols) with true by lia. replace (0 <? depth) with true by lia.
  replace (cols <=? rows) with true by lia. unfold guard. cbn [bind]. rewrite Ebp. cbn [bind].
  set (spL := GetSideBlockParams Lhs bp). set (spR := GetSideBlockParams Rhs bp).
  set (once := cols <=? bp_l2_cols bp).
  set (rhs_inv := fun b => if once then is_packed (kf_rhs k) spR (fun w d => R d (0 + w)) cols depth b else scratch_packed spR b).
  pose proof (arith_255 bp Hbp) as Ha.
  assert (Hrhs0 : exists b, (if once then PackRhs (k_pack K) m (kf_rhs k) (kf_reg k) (sc_pack_buf sc) spR (op_mem rhs) (op_map rhs)
       (new_packed spR (sc_rhs_data sc) (sc_rhs_sums sc)) else Some (new_packed spR (sc_rhs_data sc) (sc_rhs_sums sc))) = Some b /\ rhs_inv b).
  { unfold rhs_inv, once. destruct (cols <=? bp_l2_cols bp) eqn:Eo.
    - destruct (pack_rhs_block m K bp depth Hk Hbp Hd HKp Ha (op_mem rhs) (op_map rhs) R 0 cols (op_map rhs)
        (new_packed spR (sc_rhs_data sc) (sc_rhs_sums sc)) (sc_pack_buf sc)) as (b & Eb & Hb).
      + exact P6.
      + symmetry. exact P3.
      + unfold cols. rewrite <- P2. unfold depth. rewrite P3. apply mm_block_self.
      + lia.
      + apply new_packed_scratch.
      + exists b. split; [exact Eb|exact Hb].
    - eexists. split; [reflexivity|]. apply new_packed_scratch. }
  destruct Hrhs0 as (rhs1 & Erhs1 & Hrhs1). rewrite Erhs1. cbn [bind].
  match goal with |- exists log, bind (for_step 0 ?n ?s ?bd ?s0) _ = _ /\ _ =>
    destruct (for_step_inv (fun r st => scratch_packed spL (g_lhs st) /\ rhs_inv (g_rhs st) /\
       allocated (g_res st) (bp_l2_rows bp * bp_l2_cols bp) /\
       covers (ent out result) (in_rect 0 r 0 cols) (g_log st)) 0 n s bd s0) as (st & Est & HI) end.
  - lia.
  - lia.
  - cbn [g_lhs g_rhs g_res g_log]. split; [apply new_packed_scratch|]. split; [exact Hrhs1|]. split; [apply new_result_alloc|].
    apply covers_nil. unfold in_rect. intros; lia.
  - intros r st Hrr _ (I1&I2&I3&I4). cbv zeta.
    set (rs := Z.min (bp_l2_rows bp) (rows - r)).
    assert (Hrs : 0 < rs <= bp_l2_rows bp) by lia. assert (Hrs' : r + rs <= rows) by lia.
    destruct (mm_block_ok (op_map lhs) r 0 rs depth) as (lblk & Elb); [lia|unfold rows in *; lia|lia|unfold depth; lia|].
    rewrite Elb. cbn [bind].
    destruct (pack_lhs_block m K bp depth Hk Hbp Hd HKp Ha (op_mem lhs) (op_map lhs) L r rs lblk (g_lhs st) (sc_pack_buf sc))
      as (plhs & Epl & Hpl); [exact P5|reflexivity|exact Elb|exact Hrs|exact I1|].
    fold k spL in Epl. rewrite Epl. cbn [bind].
    match goal with |- exists s1, for_step 0 ?n ?s ?bd ?s0 = _ /\ _ =>
      destruct (for_step_inv (fun c st => is_packed (kf_lhs k) spL (fun w d => L (r + w) d) rs depth (g_lhs st) /\ rhs_inv (g_rhs st) /\
         allocated (g_res st) (bp_l2_rows bp * bp_l2_cols bp) /\
         covers (ent out result) (fun rr cc => in_rect 0 r 0 cols rr cc \/ in_rect r (r + rs) 0 c rr cc) (g_log st)) 0 n s bd s0) as (st' & Est' & HI') end.
    + lia.
    + lia.
    + cbn [g_lhs g_rhs g_res g_log]. split; [exact Hpl|]. split; [exact I2|]. split; [exact I3|].
      eapply covers_ext; [|exact I4]. unfold in_rect. intros; lia.
    + intros c st1 Hcc Hcd (J1&J2&J3&J4). cbv beta zeta. rewrite Z.sub_0_r in Hcd.
      set (cs := Z.min (bp_l2_cols bp) (cols - c)).
      assert (Hcs : 0 < cs <= bp_l2_cols bp) by lia. assert (Hcs' : c + cs <= cols) by lia.
      assert (Hrhs2 : exists prhs, (if once then Some (g_rhs st1)
          else let* rblk := mm_block (op_map rhs) 0 c depth cs in
               PackRhs (k_pack K) m (kf_rhs k) (kf_reg k) (sc_pack_buf sc) spR (op_mem rhs) rblk (g_rhs st1)) = Some prhs /\
          is_packed (kf_rhs k) spR (fun w d => R d (c + w)) cs depth prhs /\ rhs_inv prhs).
      { unfold rhs_inv, once in J2 |- *. destruct (cols <=? bp_l2_cols bp) eqn:Eo.
        - assert (c = 0).
          { destruct Hcd as [q Eq]. assert (q = 0 \/ 1 <= q \/ q <= -1) as [Hq|[Hq|Hq]] by lia; [subst q; lia| |];
              exfalso; clear - Eq Hq Hcc B2 Eo; nia. }
          subst c. exists (g_rhs st1). split; [reflexivity|]. split; [|exact J2].
          replace cs with cols by lia. exact J2.
        - destruct (mm_block_ok (op_map rhs) 0 c depth cs) as (rblk & Erb); [lia|unfold depth; lia|lia|unfold cols in *; lia|].
          rewrite Erb. cbn [bind].
          destruct (pack_rhs_block m K bp depth Hk Hbp Hd HKp Ha (op_mem rhs) (op_map rhs) R c cs rblk (g_rhs st1) (sc_pack_buf sc))
            as (prhs & Epr & Hpr); [exact P6|symmetry; exact P3|exact Erb|exact Hcs|exact J2|].
          exists prhs. split; [exact Epr|]. split; [exact Hpr|]. eapply is_packed_scratch. exact Hpr. }
      destruct Hrhs2 as (prhs & Eprhs & Hprhs & Hrinv). rewrite Eprhs. cbn [bind].
      destruct (do_block bp Hbp r rs c cs (g_lhs st1) prhs (g_res st1) (sc_unpack_buf sc)) as (res' & lo' & ro' & l & C1 & C2 & C3 & C4 & C5 & C6);
        try assumption; try lia.
      rewrite C1. cbn [bind]. rewrite C3. cbn [bind]. rewrite C4. cbn [bind]. rewrite C5. cbn [bind].
      eexists. split; [reflexivity|]. cbn [g_lhs g_rhs g_res g_log]. split; [exact J1|]. split; [exact Hrinv|]. split; [exact C2|].
      eapply covers_ext; [|apply covers_app; [|exact J4|exact C6]].
      * intros rr cc. unfold in_rect, cs. lia.
      * intros rr cc. unfold in_rect. lia.
    + exists st'. split; [exact Est'|]. destruct HI' as (J1&J2&J3&J4). split; [eapply is_packed_scratch; exact J1|].
      split; [exact J2|]. split; [exact J3|]. eapply covers_ext; [|exact J4]. intros rr cc. unfold in_rect, rs. lia.
  - rewrite Est. cbn [bind]. exists (g_log st). split; [reflexivity|]. apply HI.
Qed.

(* one task of the multi-threaded GEMM *)
Theorem TaskRun_spec bp sc start nrows lblk c cs prhs : bp_ok k depth bp ->
  0 <= start -> 0 <= nrows -> start + nrows <= rows -> 0 <= c -> 0 < cs <= bp_l2_cols bp -> c + cs <= cols ->
  mm_block (op_map lhs) start 0 nrows depth = Some lblk ->
  is_packed (kf_rhs k) (GetSideBlockParams Rhs bp) (fun w d => R d (c + w)) cs depth prhs ->
  exists log, TaskRun m K bp sc (mk_operand (op_mem lhs) lblk) prhs result (mk_bounds start c nrows cs) lo ro p = Some log /\
    covers (ent out result) (in_rect start (start + nrows) c (c + cs)) log.
Proof.
  intros Hbp Hs0 Hn0 Hsn Hc0 Hcs Hc1 Elb Hpr.
  pose proof Hdepth as Hd. pose proof HP as [P1 P2 P3 P4 P5 P6 P7 P8 P9 P10 P11].
  pose proof Hbp as (B1&B2&B3&_). pose proof (arith_255 bp Hbp) as Ha.
  assert (HB2 : holds_lhs (kf_lhs (k_fmt K)) (op_mem lhs) lblk (fun i j => L (start + i) (0 + j)) /\ mm_rows lblk = nrows /\ mm_cols lblk = depth).
  { destruct P5 as [P5 P5o]. destruct (holds_block _ _ _ _ _ _ _ _ _ P5 Elb) as (HB & R1 & C1 & O1).
    split; [split; [exact HB|rewrite O1; exact P5o]|]. split; assumption. }
  destruct HB2 as (HB & R1 & C1).
  unfold TaskRun. cbn [bb_row bb_col bb_rows bb_cols op_map op_mem]. fold k. cbv zeta. rewrite C1.
  set (spL := GetSideBlockParams Lhs bp).
  match goal with |- exists log, bind (for_step 0 ?n ?s ?bd ?s0) _ = _ /\ _ =>
    destruct (for_step_inv (fun c' st => scratch_packed spL (g_lhs st) /\
       allocated (g_res st) (bp_l2_rows bp * bp_l2_cols bp) /\
       covers (ent out result) (in_rect start (start + nrows) c (c + c')) (g_log st)) 0 n s bd s0) as (st & Est & HI) end.
  - lia.
  - lia.
  - cbn [g_lhs g_rhs g_res g_log]. split; [apply new_packed_scratch|]. split; [apply new_result_alloc|].
    apply covers_nil. unfold in_rect. intros; lia.
  - intros c' st Hc' Hcd (I1&I2&I3). cbv beta zeta. rewrite Z.sub_0_r in Hcd.
    assert (c' = 0).
    { destruct Hcd as [q Eq]. assert (q = 0 \/ 1 <= q \/ q <= -1) as [Hq|[Hq|Hq]] by lia; [subst q; lia| |];
        exfalso; clear - Eq Hq Hc' B2 Hcs; nia. }
    subst c'. replace (Z.min (bp_l2_cols bp) (cs - 0)) with cs by lia. replace (Z.min (0 + bp_l2_cols bp) cs) with cs by lia.
    match goal with |- exists s1, for_step 0 ?n ?s ?bd ?s0 = _ /\ _ =>
      destruct (for_step_inv (fun r st => scratch_packed spL (g_lhs st) /\
         allocated (g_res st) (bp_l2_rows bp * bp_l2_cols bp) /\
         covers (ent out result) (in_rect start (start + r) c (c + cs)) (g_log st)) 0 n s bd s0) as (st' & Est' & HI') end.
    + lia.
    + lia.
    + split; [exact I1|]. split; [exact I2|]. eapply covers_ext; [|exact I3]. unfold in_rect. intros; lia.
    + intros r st1 Hr _ (J1&J2&J3). cbv beta zeta.
      set (rs := Z.min (bp_l2_rows bp) (nrows - r)).
      assert (Hrs : 0 < rs <= bp_l2_rows bp) by lia. assert (Hrs' : r + rs <= nrows) by lia.
      destruct (mm_block_ok lblk r 0 rs depth) as (lblk2 & Elb2); [lia|lia|lia|lia|].
      rewrite Elb2. cbn [bind].
      destruct (pack_lhs_block m K bp depth Hk Hbp Hd HKp Ha (op_mem lhs) lblk _ r rs lblk2 (g_lhs st1) (sc_pack_buf sc) HB C1 Elb2 Hrs J1)
        as (plhs & Epl & Hpl).
      fold k spL in Epl. rewrite Epl. cbn [bind]. rewrite Z.add_0_r.
      destruct (do_block bp Hbp (start + r) rs c cs plhs prhs (g_res st1) (sc_unpack_buf sc)) as (res' & lo' & ro' & l & D1 & D2 & D3 & D4 & D5 & D6);
        try assumption; try lia.
      { eapply is_packed_ext; [|exact Hpl]. intros w d Hw Hdd. cbv beta. f_equal; lia. }
      rewrite D1. cbn [bind]. rewrite D3. cbn [bind]. rewrite D4. cbn [bind]. rewrite D5. cbn [bind].
      eexists. split; [reflexivity|]. cbn [g_lhs g_rhs g_res g_log]. split; [eapply is_packed_scratch; exact Hpl|]. split; [exact D2|].
      eapply covers_ext; [|apply covers_app; [|exact J3|exact D6]].
      * intros rr cc. unfold in_rect, rs. lia.
      * intros rr cc. unfold in_rect. lia.
    + exists st'. split; [exact Est'|exact HI'].
  - rewrite Est. cbn [bind]. exists (g_log st). split; [reflexivity|]. apply HI.
Qed.
End Gemm.
