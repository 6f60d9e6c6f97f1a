(* OutputSimdUnpack.v: unpacking with SSE, NEON or MSA registers stores what the
   scalar code stores *)
From Verif Require Import Base BaseLemmas CommonModel PackModel FixedPointModel FixedPointSpec FixedPointProofs ComputeModel
  OutputModel OutputSpec OutputProofs
  UnpackModel UnpackProofs SimdModel SimdProofs SimdProofs2
  OutputSimdModel OutputSimdLanes OutputSimdStore OutputSimdBlocks OutputSimdCast OutputSimdSpec OutputSimdStages.

Lemma covers_val f g (P : Z -> Z -> Prop) l : (forall i j, P i j -> f i j = g i j) -> covers f P l -> covers g P l.
Proof.
  intros E (vis & -> & N & HI). exists vis. split; [|split; assumption]. apply map_ext_in. intros [i j] Hin. cbn. apply E. now apply HI.
Qed.
Lemma pipe_ty_ok T t : forall p, pipe_ty T p = Some t -> ty_ok T t.
Proof.
  intros p H. intros ->. induction p as [|s p IH]; cbn [pipe_ty] in H; [discriminate|].
  destruct (stage_ty T s) as [u|] eqn:Es; [|discriminate]. destruct u; try (destruct p; discriminate); try (now apply IH).
  clear IH H. destruct s; cbn [stage_ty] in Es; try discriminate Es; [destruct T; discriminate Es|destruct T; [discriminate Es|reflexivity|discriminate Es]|destruct T; discriminate Es|destruct bias; discriminate Es].
Qed.

(* the 8x8 load *)
Lemma load88 T t buf g : ty_ok T t ->
  (forall i j, 0 <= i < 8 -> 0 <= j < 8 -> buf (i + j * 8) = Some (g i j) /\ as_ty t (g i j) = g i j) ->
  exists b, LoadContiguousV T t buf = Some b /\ out_block T b t 8 8 g.
Proof.
  intros HT H.
  set (v := fun q => getv (buf q)).
  assert (HB : forall q, 0 <= q < 64 -> rd buf q = Some (v q) /\ as_ty t (v q) = v q).
  { intros q Hq. destruct (H (q mod 8) (q / 8) ltac:(lia) ltac:(lia)) as (E & F). replace (q mod 8 + q / 8 * 8) with q in E by lia.
    unfold rd, v. rewrite E. cbn [getv]. auto. }
  assert (L : exists n, lanes_of T t 64 = n /\ 1 < n /\ (64 / n) * n = 64 /\ 1 <= width t).
  { destruct T, t; match goal with |- exists n, ?x = n /\ _ => let v := eval vm_compute in x in exists v end; (split; [reflexivity|]); (split; [lia|]); (split; [reflexivity|]); cbn [width]; lia. }
  destruct L as (n & Ln & Hn & Dn & Hw). unfold LoadContiguousV. rewrite Ln. cbv zeta.
  set (f := fun k => regl (width t) (map (fun i => v (n * k + i)) (zrange n))).
  rewrite (mapM_some _ f).
  2: { intros k Hk. apply zrange_In in Hk. rewrite (mapM_some _ (fun i => v (n * k + i))); [reflexivity|].
       intros i Hi. apply zrange_In in Hi. apply HB. nia. }
  cbn [bind]. eexists. split; [reflexivity|]. do 3 (split; [reflexivity|]). cbn [s_regs]. change (8 * 8) with 64. rewrite Ln.
  rewrite map_length, zrange_length by (apply Z.div_pos; lia). split; [reflexivity|].
  intros i j Hi Hj. rewrite entry_lval. unfold s_count. cbn [s_ty s_rows s_cols s_regs]. change (8 * 8) with 64. rewrite Ln. unfold lval.
  replace (n =? 1) with false by lia. set (q := i + 8 * j).
  assert (Hq : 0 <= q < 64) by lia. assert (Hqn : 0 <= q / n < 64 / n) by (pose proof (Z.div_mod q n ltac:(lia)); pose proof (Z.mod_pos_bound q n ltac:(lia)); nia).
  pose proof (Z.mod_pos_bound q n ltac:(lia)) as Hm.
  rewrite nthZ_map by exact Hqn. unfold f. rewrite getU_regl by (try rewrite map_length, zrange_length by lia; lia).
  rewrite nthZ_map by exact Hm. rewrite as_ty_wrapU. rewrite <- Z.div_mod by lia.
  destruct (HB q Hq) as (_ & ->). unfold v, q. replace (i + 8 * j) with (i + j * 8) by lia. destruct (H i j Hi Hj) as (-> & _). reflexivity.
Qed.

Lemma MulAdd_fits m x y a z : MulAdd m x y a = Some z -> fits 32 z.
Proof. intros H. unfold MulAdd in H. apply bind_some in H as (q & _ & H). now apply norm_wrap in H as (_ & H); [|lia]. Qed.

Section UnpackV.
Variables (T : simd) (m : ovf) (k : kernel_fmt) (src : mem) (src_map : matrix_map) (p : list stage) (t : sty)
  (lsm rsm : mem) (lhs_offset rhs_offset : vec) (depth rows cols row0 col0 : Z)
  (A : Z -> Z -> Z) (SL SR LO RO : Z -> Z) (out : Z -> Z -> Z).
Hypothesis Hrows : 0 <= rows.
Hypothesis Hcols : 0 <= cols.
Hypothesis Hcm : mm_order src_map = ColMajor.
Hypothesis HA : forall r c, 0 <= r < rows -> 0 <= c < cols -> src (mm_addr src_map r c) = Some (A r c) /\ fits 32 (A r c).
Hypothesis HLOs : has_shape lhs_offset VCol.
Hypothesis HROs : has_shape rhs_offset VRow.
Hypothesis HSL : forall r, 0 <= r < rows -> lsm r = Some (SL r) /\ fits 32 (SL r).
Hypothesis HSR : forall c, 0 <= c < cols -> rsm c = Some (SR c) /\ fits 32 (SR c).
Hypothesis HLO : forall r, 0 <= r < rows -> vec_get lhs_offset r = Some (LO r) /\ fits 32 (LO r).
Hypothesis HRO : forall c, 0 <= c < cols -> vec_get rhs_offset c = Some (RO c) /\ fits 32 (RO c).
Let zl := sf_zp (kf_lhs k).
Let zr := sf_zp (kf_rhs k).
Let U (r c : Z) : option Z := unpack_at m zl zr depth (A r c) (SL r) (SR c) (LO r) (RO c).
Hypothesis Hty : pipe_ty T p = Some t.
Hypothesis HU : forall r c, 0 <= r < rows -> 0 <= c < cols ->
  exists a, U r c = Some a /\ pipe_at m p (row0 + r) (col0 + c) a = Some (out (row0 + r) (col0 + c)) /\
    pipe_safe T m p (row0 + r) (col0 + c) a.
Let lhs_sums := VMap VCol (mk_vmap lsm 0 rows).
Let rhs_sums := VMap VRow (mk_vmap rsm 0 cols).

Lemma UnpackResultBlockV_spec R C dst r0 c0 drow dcol : tile_shape R C ->
  0 <= r0 -> r0 + R <= rows -> 0 <= c0 -> c0 + C <= cols ->
  exists l, UnpackResultBlockV T m k R C src src_map p dst lhs_sums rhs_sums lhs_offset rhs_offset depth
     r0 c0 (r0 + row0) (c0 + col0) drow dcol = Some l /\
  covers (fun i j => (mm_addr dst (drow + i) (dcol + j), out (row0 + (r0 + i)) (col0 + (c0 + j)))) (in_rect 0 R 0 C) l.
Proof.
  intros HRC Hr0 HrR Hc0 HcC. assert (0 < R /\ 0 < C) as [HR HC] by (unfold tile_shape in HRC; lia).
  unfold UnpackResultBlockV. destruct ((R =? 1) && (C =? 1)) eqn:E1x1.
  { rewrite (UnpackResultBlock_spec m k src src_map p lhs_sums rhs_sums
      lhs_offset rhs_offset depth rows cols row0 col0 A SL SR LO RO out); try assumption; try reflexivity.
    2: { intros r c Hr Hc. now apply HA. }
    2: { intros r Hr. now apply HSL. }
    2: { intros c Hc. now apply HSR. }
    2: { intros r Hr. now apply HLO. }
    2: { intros c Hc. now apply HRO. }
    2: { intros r c Hr Hc. destruct (HU r c Hr Hc) as (a & E1 & E2 & _). exists a. auto. }
    eexists. split; [reflexivity|]. apply (covers_tile _ 0 0 R C); [exact HR|exact HC|].
    apply map_ext. intros i. rewrite !Z.add_0_l. reflexivity. }
  assert (HT : vtile R C) by (unfold tile_shape in HRC; unfold vtile; lia).
  destruct (load_col_major R C src src_map r0 c0 (fun i j => A (r0 + i) (c0 + j)) HT Hcm) as (acc & Eacc & Vacc).
  { intros i j Hi Hj. destruct (HA (r0 + i) (c0 + j) ltac:(lia) ltac:(lia)) as (E & F). split; [|exact F].
    unfold rd. rewrite <- E. f_equal. unfold mm_addr, mm_rows_stride, mm_cols_stride. rewrite Hcm. lia. }
  rewrite Eacc. cbn [bind].
  destruct (load_vec_spec lhs_sums R C r0 (fun i j => SL (r0 + i)) HT) as (b1 & E1 & V1).
  { intros i j Hi Hj. cbn. replace (0 + (r0 + i)) with (r0 + i) by lia. unfold rd. apply HSL. lia. }
  rewrite E1. cbn [bind].
  destruct (load_vec_spec rhs_sums R C c0 (fun i j => SR (c0 + j)) HT) as (b2 & E2 & V2).
  { intros i j Hi Hj. cbn. apply HSR. lia. }
  rewrite E2. cbn [bind].
  destruct (load_vec_spec lhs_offset R C r0 (fun i j => LO (r0 + i)) HT) as (b3 & E3 & V3).
  { intros i j Hi Hj. destruct (HLO (r0 + i) ltac:(lia)) as (E & F). split; [|exact F]. rewrite <- E.
    destruct lhs_offset as [sh u|]; cbn in HLOs |- *; [subst sh|]; reflexivity. }
  rewrite E3. cbn [bind].
  destruct (load_vec_spec rhs_offset R C c0 (fun i j => RO (c0 + j)) HT) as (b4 & E4 & V4).
  { intros i j Hi Hj. destruct (HRO (c0 + j) ltac:(lia)) as (E & F). split; [|exact F]. rewrite <- E.
    destruct rhs_offset as [sh u|]; cbn in HROs |- *; [subst sh|]; reflexivity. }
  rewrite E4. cbn [bind].
  cbn [lhs_sums rhs_sums] in V1, V2.
  set (lr := match lhs_offset with VMap VCol _ => R | _ => 1 end) in V3.
  set (rc := match rhs_offset with VMap VRow _ => C | _ => 1 end) in V4.
  assert (V3' : sview b3 lr 1 R C (fun i j => LO (r0 + i))).
  { destruct lhs_offset as [[|] u|]; cbn in HLOs; try discriminate; exact V3. }
  assert (V4' : sview b4 1 rc R C (fun i j => RO (c0 + j))).
  { destruct rhs_offset as [[|] u|]; cbn in HROs; try discriminate; exact V4. }
  assert (Hlr : lr = R \/ lr = 1) by (unfold lr; destruct lhs_offset as [[|] ?|]; auto).
  assert (Hrc : rc = C \/ rc = 1) by (unfold rc; destruct rhs_offset as [[|] ?|]; auto).
  assert (SHl : In (lr, 1) shapes /\ sub lr 1 R C).
  { clear - HT Hlr. unfold sub. destruct HT as [(-> & ->) | [(-> & ->) | [(-> & ->) | [(-> & ->) | (-> & ->)]]]]; destruct Hlr as [-> | ->]; (split; [cbn; tauto|lia]). }
  assert (SHr : In (1, rc) shapes /\ sub 1 rc R C).
  { clear - HT Hrc. unfold sub. destruct HT as [(-> & ->) | [(-> & ->) | [(-> & ->) | [(-> & ->) | (-> & ->)]]]]; destruct Hrc as [-> | ->]; (split; [cbn; tauto|lia]). }
  destruct SHl as (SHl & SBl). destruct SHr as (SHr & SBr).
  clear V3 V4. clearbody lr rc.
  assert (HUt : forall r c, 0 <= r < R -> 0 <= c < C -> exists a, U (r0 + r) (c0 + c) = Some a /\
      pipe_at m p (r0 + row0 + r) (c0 + col0 + c) a = Some (out (row0 + (r0 + r)) (col0 + (c0 + c))) /\
      pipe_safe T m p (r0 + row0 + r) (c0 + col0 + c) a).
  { intros r c Hr Hc. destruct (HU (r0 + r) (c0 + c)) as (a & Ea & Ep); [lia|lia|]. exists a. split; [exact Ea|].
    replace (r0 + row0 + r) with (row0 + (r0 + r)) by lia. replace (c0 + col0 + c) with (col0 + (c0 + c)) by lia. exact Ep. }
  set (lo' := fun r => getv (addc m zl (LO r))). set (ro' := fun c => getv (addc m zr (RO c))).
  set (a1 := fun r c => getv (MulAdd m (SL r) (ro' c) (A r c))).
  set (rd' := fun c => getv (norm m 32 (ro' c * depth))).
  set (s' := fun c => getv (norm m 32 (SR c + rd' c))).
  assert (HX : forall r c, 0 <= r < R -> 0 <= c < C ->
     addc m zl (LO (r0 + r)) = Some (lo' (r0 + r)) /\ addc m zr (RO (c0 + c)) = Some (ro' (c0 + c)) /\
     MulAdd m (SL (r0 + r)) (ro' (c0 + c)) (A (r0 + r) (c0 + c)) = Some (a1 (r0 + r) (c0 + c)) /\
     norm m 32 (ro' (c0 + c) * depth) = Some (rd' (c0 + c)) /\
     norm m 32 (SR (c0 + c) + rd' (c0 + c)) = Some (s' (c0 + c)) /\
     MulAdd m (s' (c0 + c)) (lo' (r0 + r)) (a1 (r0 + r) (c0 + c)) = U (r0 + r) (c0 + c)).
  { intros r c Hr Hc. destruct (HUt r c Hr Hc) as (a & Ea & _). unfold U, unpack_at in Ea |- *.
    apply bind_some in Ea as (x1 & X1 & Ea). apply bind_some in Ea as (x2 & X2 & Ea).
    apply bind_some in Ea as (x3 & X3 & Ea). apply bind_some in Ea as (x4 & X4 & Ea).
    apply bind_some in Ea as (x5 & X5 & Ea).
    assert (L1 : lo' (r0 + r) = x1) by (unfold lo'; rewrite X1; reflexivity).
    assert (L2 : ro' (c0 + c) = x2) by (unfold ro'; rewrite X2; reflexivity).
    assert (L3 : a1 (r0 + r) (c0 + c) = x3) by (unfold a1; rewrite L2, X3; reflexivity).
    assert (L4 : rd' (c0 + c) = x4) by (unfold rd'; rewrite L2, X4; reflexivity).
    assert (L5 : s' (c0 + c) = x5) by (unfold s'; rewrite L4, X5; reflexivity).
    rewrite X1, X2. cbn [bind]. rewrite L1, L2, L3, L4, L5, X3. cbn [bind]. rewrite X4. cbn [bind]. rewrite X5. cbn [bind].
    repeat split. }
  destruct (sview_const b3 lr 1 R C _ (fun i j => lo' (r0 + i)) T m zl SHl SBl HR HC V3') as (b5 & E5 & V5).
  { intros r c Hr Hc. destruct (HX r c Hr Hc) as (X & _). exact X. }
  fold zl zr. rewrite E5. cbn [bind].
  destruct (sview_const b4 1 rc R C _ (fun i j => ro' (c0 + j)) T m zr SHr SBr HR HC V4') as (b6 & E6 & V6).
  { intros r c Hr Hc. destruct (HX r c Hr Hc) as (_ & X & _). exact X. }
  rewrite E6. cbn [bind].
  destruct (muladd T m b1 b6 acc R 1 1 rc R C (fun i j => SL (r0 + i)) (fun i j => ro' (c0 + j)) (fun i j => A (r0 + i) (c0 + j))
     (fun i j => a1 (r0 + i) (c0 + j)) HT Vacc ltac:(left; auto) V1 V6) as (b7 & E7 & V7).
  { intros r c Hr Hc. destruct (HX r c Hr Hc) as (_ & _ & X & _). exact X. }
  rewrite E7. cbn [bind].
  destruct (regs_map b6 1 rc R C _ (fun i j => rd' (c0 + j)) (fun x => Mul m 32 x depth) (fun x : Z => Some (rMulN T x depth)) (fun x => rMulN T x depth) SHr SBr HR HC V6
     (fun A => eq_refl)) as (b8 & E8 & V8).
  { intros B q i j Hq Hi Hj HB. rewrite l_muln, HB by exact Hq. destruct (HX i j Hi Hj) as (_ & _ & _ & X & _). apply norm_wrap in X as (-> & _); [|lia].
    apply wrapS_mul_r. lia. }
  { intros _ i j Hi Hj. destruct (HX i j Hi Hj) as (_ & _ & _ & X & _). split; [exact X|]. now apply norm_wrap in X as (_ & X); [|lia]. }
  rewrite E8. cbn [bind].
  destruct (bcast T (Add m 32) (fun A B : Z => Some (rAdd T A B)) (rAdd T) (fun _ _ => True) b2 b8 1 C 1 rc R C (fun _ j => SR (c0 + j)) (fun _ j => rd' (c0 + j))
      (fun _ j => s' (c0 + j)) (fun A B => eq_refl)) as (b9 & E9 & V9); [ |exact HR|exact HC| | |exact V2|exact V8| |].
  { intros B D q z Hq _ Hz. apply norm_wrap in Hz as (-> & _); [|lia]. now rewrite l_add by exact Hq. }
  { unfold sub. auto. }
  { clear - HT Hrc. destruct HT as [(-> & ->) | [(-> & ->) | [(-> & ->) | [(-> & ->) | (-> & ->)]]]]; destruct Hrc as [-> | ->]; cbn; tauto. }
  { intros i j Hi Hj. destruct (HX i j Hi Hj) as (_ & _ & _ & _ & X & _). split; [exact I|]. split; [exact X|]. intros _. now apply norm_wrap in X as (_ & X); [|lia]. }
  unfold BroadcastAddV. rewrite E9. cbn [bind].
  destruct (muladd T m b9 b5 b7 1 C lr 1 R C (fun i j => s' (c0 + j)) (fun i j => lo' (r0 + i)) (fun i j => a1 (r0 + i) (c0 + j))
     (fun i j => getv (U (r0 + i) (c0 + j))) HT V7 ltac:(right; auto) V9 V5) as (b10 & E10 & V10).
  { intros r c Hr Hc. destruct (HX r c Hr Hc) as (_ & _ & _ & _ & _ & X). rewrite X.
    destruct (HUt r c Hr Hc) as (a & Ea & _). rewrite Ea. reflexivity. }
  rewrite E10. cbn [bind].
  destruct (pipe_simd T m R C (r0 + row0) (c0 + col0) t (fun i j => out (row0 + (r0 + i)) (col0 + (c0 + j))) HT p b10 _ V10 Hty) as (b11 & E11 & V11).
  { intros r c Hr Hc. destruct (HUt r c Hr Hc) as (a & Ea & Ep). rewrite Ea. exact Ep. }
  rewrite E11. cbn [bind]. destruct V11 as (W1 & W2 & W3 & W4 & W5).
  destruct (store_spec T b11 dst drow dcol) as (log & El & Cl).
  - rewrite W2, W3. unfold store_shape. unfold vtile in HT. clear - HT. tauto.
  - rewrite W1. exact (pipe_ty_ok T t p Hty).
  - unfold s_count. rewrite W1, W2, W3. exact W4.
  - exists log. split; [exact El|]. rewrite W2, W3 in Cl. revert Cl. apply covers_val. intros i j (Hi & Hj). f_equal. apply W5; lia.
Qed.
End UnpackV.

Theorem UnpackResultV_spec T m k t junk dst blk src src_map depth lsm rsm lo ro p (A : Z -> Z -> Z) (SL SR LO RO : Z -> Z) (out : Z -> Z -> Z) :
  0 <= bb_row blk -> 0 <= bb_rows blk -> bb_row blk + bb_rows blk <= mm_rows dst ->
  0 <= bb_col blk -> 0 <= bb_cols blk -> bb_col blk + bb_cols blk <= mm_cols dst ->
  mm_order src_map = ColMajor ->
  (forall r c, 0 <= r < bb_rows blk -> 0 <= c < bb_cols blk -> src (mm_addr src_map r c) = Some (A r c) /\ fits 32 (A r c)) ->
  has_shape lo VCol -> has_shape ro VRow ->
  (forall r, 0 <= r < bb_rows blk -> lsm r = Some (SL r) /\ fits 32 (SL r)) ->
  (forall c, 0 <= c < bb_cols blk -> rsm c = Some (SR c) /\ fits 32 (SR c)) ->
  (forall r, 0 <= r < bb_rows blk -> vec_get lo r = Some (LO r) /\ fits 32 (LO r)) ->
  (forall c, 0 <= c < bb_cols blk -> vec_get ro c = Some (RO c) /\ fits 32 (RO c)) ->
  pipe_ty T p = Some t ->
  (forall r c, 0 <= r < bb_rows blk -> 0 <= c < bb_cols blk ->
     exists a, unpack_at m (sf_zp (kf_lhs k)) (sf_zp (kf_rhs k)) depth (A r c) (SL r) (SR c) (LO r) (RO c) = Some a /\
       pipe_at m p (bb_row blk + r) (bb_col blk + c) a = Some (out (bb_row blk + r) (bb_col blk + c)) /\
       pipe_safe T m p (bb_row blk + r) (bb_col blk + c) a) ->
  exists log, UnpackResultV T m k t junk dst blk src src_map depth lsm rsm lo ro p = Some log /\
    covers (ent out dst) (in_rect (bb_row blk) (bb_row blk + bb_rows blk) (bb_col blk) (bb_col blk + bb_cols blk)) log.
Proof.
  intros H1 H2 H3 H4 H5 H6 Hcm HA Hlo Hro HSL HSR HLO HRO Hty HU.
  unfold UnpackResultV, guard.
  replace (0 <=? bb_row blk) with true by lia. replace (bb_row blk + bb_rows blk <=? mm_rows dst) with true by lia.
  replace (0 <=? bb_col blk) with true by lia. replace (bb_col blk + bb_cols blk <=? mm_cols dst) with true by lia.
  cbn [bind].
  apply (UnpackTiles_spec _ _ _ _ _ out (fun x => as_ty t x = x)); try assumption.
  - intros r c Hr Hc. destruct (HU r c Hr Hc) as (a & Ea & Ep & Es). apply (pipe_fits T m t _ _ p a _ Hty) with (2 := Es) (3 := Ep).
    unfold unpack_at in Ea. do 5 apply bind_some in Ea as (? & _ & Ea). exact (MulAdd_fits m _ _ _ _ Ea).
  - intros R C d r0 c0 drow dcol HRC Hr0 HrR Hc0 HcC.
    exact (UnpackResultBlockV_spec T m k src src_map p t lsm rsm lo ro depth (bb_rows blk) (bb_cols blk) (bb_row blk) (bb_col blk)
      A SL SR LO RO out Hcm HA Hlo Hro HSL HSR HLO HRO Hty HU R C d r0 c0 drow dcol HRC Hr0 HrR Hc0 HcC).
  - intros buf g r c Hg. destruct (load88 T t buf g (pipe_ty_ok T t p Hty) Hg) as (b & Eb & W1 & W2 & W3 & W4 & W5).
    rewrite Eb. cbn [bind].
    destruct (store_spec T b dst r c) as (log & El & Cl).
    + rewrite W2, W3. unfold store_shape. auto 10.
    + rewrite W1. exact (pipe_ty_ok T t p Hty).
    + unfold s_count. rewrite W1, W2, W3. exact W4.
    + exists log. split; [exact El|]. rewrite W2, W3 in Cl. revert Cl. apply covers_val. intros i j (Hi & Hj). f_equal. apply W5; lia.
Qed.
