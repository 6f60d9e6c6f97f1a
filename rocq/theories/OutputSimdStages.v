(* OutputSimdStages.v: the output stages and pipelines on register blocks,
   against their entry-wise meaning *)
From Verif Require Import Base BaseLemmas SimdModel2 CommonModel PackModel ComputeModel FixedPointModel FixedPointSpec FixedPointProofs FixedPointProofs3
  FixedPointProofs4 FixedPointProofs5 OutputModel OutputSpec OutputProofs
  UnpackModel UnpackProofs SimdModel SimdProofs SimdProofs2 SimdProofs3 SimdProofs4 SimdProofs5
  OutputSimdModel OutputSimdLanes OutputSimdStore OutputSimdBlocks OutputSimdCast OutputSimdSpec.

Definition sty_eq_dec (a b : sty) : {a = b} + {a <> b}.
Proof. decide equality. Defined.
Lemma i32_fits x : i32 x <-> fits 32 x.
Proof. unfold i32, fits. change (2 ^ (32 - 1)) with 2147483648. lia. Qed.
Lemma w32 : w1632 32.
Proof. now right. Qed.

Lemma l_srdhm T k a b : 0 <= k < 4 -> (T = Sse -> ~ (get 32 k a = - 2147483648 /\ get 32 k b = - 2147483648)) ->
  get 32 k (rSRDHM T a b) = SaturatingRoundingDoublingHighMul 32 (get 32 k a) (get 32 k b).
Proof.
  intros Hk H. destruct T; cbn [rSRDHM].
  - apply sse_mul32; [exact Hk|]. exact (H eq_refl).
  - apply neon_mul; [exact w32|exact Hk].
  - exact (g_mmul 32 k w32 Hk a b).
Qed.
Lemma rdpot_inv m x e y : fits 32 x -> RoundingDivideByPOT m 32 x e = Some y -> 0 <= e <= 31 /\ y = rnd_away x (2 ^ e).
Proof.
  intros Fx H. assert (E : 0 <= e <= 31).
  { unfold RoundingDivideByPOT, guard in H. destruct (0 <=? e) eqn:E1; [|discriminate]. destruct (e <=? 31) eqn:E2; [|discriminate]. lia. }
  split; [exact E|]. rewrite (rdpot_eq m 32 x e w32 Fx) in H by lia. congruence.
Qed.
Lemma rdpot_total T A e : 0 <= e <= 31 -> exists v, rRDPOT T A e = Some v.
Proof.
  intros He. destruct T; cbn [rRDPOT]; [|eauto|eauto]. unfold sse_RoundingDivideByPOT, guard.
  replace (0 <=? e) with true by lia. replace (e <=? 31) with true by lia. eexists. reflexivity.
Qed.
Lemma l_rdpot T A e v k : 0 <= k < 4 -> 0 <= e <= 31 -> rRDPOT T A e = Some v -> get 32 k v = rnd_away (get 32 k A) (2 ^ e).
Proof.
  intros Hk He H. destruct T; cbn [rRDPOT] in H.
  - pose proof (sse_rdpot 32 k A e w32 Hk) as P. rewrite H in P. cbn [option_map] in P.
    rewrite (rdpot_eq Wrap 32 _ e w32) in P by (try apply get_fits; lia). congruence.
  - injection H as <-. apply neon_rdpot; [exact w32|exact Hk|lia].
  - injection H as <-. apply (g_mdiv 32 k w32 Hk). lia.
Qed.
Lemma l_shl T k A n : 0 <= k < 4 -> 0 <= n <= 30 -> fits 32 (get 32 k A * 2 ^ n) -> get 32 k (rShl T A n) = get 32 k A * 2 ^ n.
Proof.
  intros Hk Hn F. rewrite <- (fits_wrap _ F). destruct T; cbn [rShl].
  - apply (g_sse_shl 32 k w32 Hk). lia.
  - apply (g_neon_shl 32 k w32 Hk). lia.
  - apply (g_mshl 32 k w32 Hk). lia.
Qed.
Lemma l_shr T k A n : 0 <= k < 4 -> 0 <= n <= 31 -> get 32 k (rShr T A n) = Z.shiftr (get 32 k A) n.
Proof.
  intros Hk Hn. destruct T; cbn [rShr].
  - apply (g_sse_shr 32 k w32 Hk). lia.
  - apply (g_neon_shr 32 k w32 Hk). lia.
  - apply (g_mshr 32 k w32 Hk). lia.
Qed.
Lemma l_sel T k m a b : 0 <= k < 4 -> get 32 k (rSelect T m a b) = SelectUsingMask (get 32 k m) (get 32 k a) (get 32 k b).
Proof. intros Hk. destruct T; cbn [rSelect]; [apply g_sse_sel|apply g_neon_sel|apply g_msel]; exact w32 || exact Hk. Qed.
Lemma l_le T k a b : 0 <= k < 4 -> get 32 k (rLe T a b) = MaskIfLessThanOrEqual (get 32 k a) (get 32 k b).
Proof. intros Hk. destruct T; cbn [rLe]; [apply g_sse_le|apply g_neon_le|apply g_le]; exact w32 || exact Hk. Qed.
Lemma l_ge T k a b : 0 <= k < 4 -> get 32 k (rGe T a b) = MaskIfGreaterThanOrEqual (get 32 k a) (get 32 k b).
Proof. intros Hk. destruct T; cbn [rGe]; [apply g_sse_ge|apply g_neon_ge|apply g_mge]; exact w32 || exact Hk. Qed.

(* ------------------------------------------------------------------ *)
(* one operation on every register of a tile *)
Lemma vtile_shapes R C : vtile R C -> In (R, C) shapes /\ sub R C R C /\ 0 < R /\ 0 < C /\ ~ (R = 1 /\ C = 1).
Proof.
  intros [(-> & ->) | [(-> & ->) | [(-> & ->) | [(-> & ->) | (-> & ->)]]]]; (split; [cbn; tauto|]); unfold sub; lia.
Qed.
Lemma on_regs_spec b R C g h (f : Z -> option Z) : vtile R C -> sview b R C R C g ->
  (forall A, exists v, f A = Some v) ->
  (forall A v k i j, 0 <= k < 4 -> 0 <= i < R -> 0 <= j < C -> f A = Some v -> get 32 k A = g i j -> get 32 k v = h i j) ->
  exists l, mapM f (s_regs b) = Some l /\ sview (mk_sblock I32 R C l) R C R C h.
Proof.
  intros HT HV Hf Hk. destruct (vtile_shapes R C HT) as (HS & HB & HR & HC & N1).
  set (fu := fun A => match f A with Some v => v | None => 0 end).
  assert (E : forall A, f A = Some (fu A)) by (intros A; unfold fu; destruct (Hf A) as (v & ->); reflexivity).
  destruct (regs_map b R C R C g h f f fu HS HB HR HC HV E) as (b' & E1 & E2).
  - intros A k i j H1 H2 H3 H4. exact (Hk A (fu A) k i j H1 H2 H3 (E A) H4).
  - intros X. contradiction.
  - unfold map_regs in E1. destruct HV as (V1 & V2 & V3 & _). rewrite V1, V2, V3 in E1.
    assert (EQ : exists l, mapM f (s_regs b) = Some l /\ b' = mk_sblock I32 R C l).
    { destruct (is_1x1 b); apply bind_some in E1 as (l & EM & E1); injection E1 as <-; exists l; auto. }
    destruct EQ as (l & EM & ->). exists l. auto.
Qed.

(* ------------------------------------------------------------------ *)
(* tanh *)
Lemma vo_lane T k : 0 <= k < 4 -> lane_ok (vo T) 32 k.
Proof. intros Hk. destruct T; [exact (sse_lane_ok 32 k w32 Hk)|exact (neon_lane_ok 32 k w32 Hk)|exact (ops_lane _ 32 k w32 (msa_ok 32 k w32 Hk))]. Qed.
Lemma pot_total T e x : - 3 <= e <= 30 -> exists v, v_pot (vo T) e x = Some v.
Proof.
  intros He. destruct (k_pot _ _ _ (vo_lane T 0 ltac:(lia)) e x ltac:(lia) ltac:(lia)) as (r & E & _). eauto.
Qed.
Lemma bind_total {A B} (x : option A) (k : A -> option B) : (exists v, x = Some v) -> (forall a, exists v, k a = Some v) -> exists v, bind x k = Some v.
Proof. intros (v & ->) H. exact (H v). Qed.
Lemma v_tanh_total T a : exists v, v_tanh (vo T) 32 3 a = Some v.
Proof.
  unfold v_tanh. apply bind_total; [|intros e; apply bind_total; [|intros t; eauto]].
  - unfold v_exp_on_negative_values. 
    repeat (apply bind_total; [first [now eexists | apply pot_total; lia | idtac]|intros ?]); try (now eexists).
  - unfold v_one_minus_x_over_one_plus_x, v_newton_reciprocal, v_newton_step, vRescale.
    repeat match goal with
    | |- exists v, RescaleConstantInitializer _ _ _ = Some v => eexists; vm_compute; reflexivity
    | |- exists v, v_pot _ _ _ = Some v => apply pot_total; lia
    | |- exists v, bind _ _ = Some v => apply bind_total; [|intros ?]
    | |- exists v, Some _ = Some v => eexists; reflexivity
    end.
Qed.

Lemma sel_ones c a b : SelectUsingMask (MaskIfNonZero (b2z c)) a b = if c then a else b.
Proof.
  unfold SelectUsingMask, MaskIfNonZero, BitXor, BitAnd, BitNot. destruct c; cbn [b2z].
  - change (if 1 =? 0 then 0 else -1) with (-1). rewrite Z.land_m1_l. change (Z.lnot (-1)) with 0. rewrite Z.land_0_l. apply Z.lxor_0_r.
  - change (if 0 =? 0 then 0 else -1) with 0. rewrite Z.land_0_l. change (Z.lnot 0) with (-1). rewrite Z.land_m1_l. apply Z.lxor_0_l.
Qed.
Lemma tanh_lane m z t : fits 32 z -> z <> - 2 ^ (32 - 1) -> ftanh m 32 3 z = Some t -> ftanh Trap 32 3 z = Some t.
Proof.
  intros F N H. destruct (tanh_ok Trap 32 3 z w32 ltac:(lia) F N) as (r & E & _). destruct m; [|exact H].
  pose proof (agree_tanh 32 3 z ltac:(lia) r E). congruence.
Qed.
Lemma some_inj {A} (a b : A) : Some a = Some b -> a = b.
Proof. congruence. Qed.
Lemma tanh_stage T m zero amp tc r c x y A k v : 0 <= k < 4 -> get 32 k A = x -> stage_safe T (STanh zero amp tc) r c x ->
  tanh_reg m zero amp tc x = Some y -> tanh_regV T m zero amp tc A = Some v -> get 32 k v = y.
Proof.
  intros Hk HA (Z0 & A8 & Cmin & Cmax & Hin & Ham & Hx) HS HV.
  assert (Fx : fits 32 x) by (rewrite <- HA; apply get_fits; lia).
  rewrite i32_fits in Z0, A8, Cmin, Cmax.
  unfold tanh_reg in HS. unfold tanh_regV in HV.
  assert (N8 : norm m 32 (8 * amp) = Some (8 * amp)).
  { destruct (norm m 32 (8 * amp)) as [q|] eqn:E; [|discriminate HS]. apply norm_wrap in E as (-> & _); [|lia]. now rewrite fits_wrap. }
  rewrite N8 in HS, HV. cbn [bind] in HS, HV.
  apply bind_some in HS as (cmin & E1 & HS). rewrite E1 in HV. cbn [bind] in HV. apply norm_wrap in E1 as (-> & _); [|lia].
  apply bind_some in HS as (cmax & E2 & HS). rewrite E2 in HV. cbn [bind] in HV. apply norm_wrap in E2 as (-> & _); [|lia].
  rewrite (fits_wrap _ Cmin) in *. rewrite (fits_wrap _ Cmax) in *.
  apply bind_some in HS as (omin & E3 & HS). rewrite E3 in HV. cbn [bind] in HV. apply norm_wrap in E3 as (_ & F3); [|lia].
  apply bind_some in HS as (omax & E4 & HS). rewrite E4 in HV. cbn [bind] in HV. apply norm_wrap in E4 as (_ & F4); [|lia].
  apply bind_some in HS as (cen & E5 & HS). apply norm_wrap in E5 as (-> & _); [|lia].
  apply bind_some in HS as (fin & E6 & HS). apply bind_some in HS as (th & E7 & HS). apply bind_some in HS as (sh & E8 & HS).
  apply bind_some in HS as (io & E9 & HS). apply norm_wrap in E9 as (-> & _); [|lia].
  apply some_inj in HS. subst y.
  apply bind_some in HV as (thv & EV & HV). apply some_inj in HV. subst v.
  rewrite !l_sel, l_le, l_ge, !l_dup, HA by exact Hk.
  rewrite (fits_wrap _ Cmin), (fits_wrap _ Cmax), (fits_wrap _ F3), (fits_wrap _ F4).
  unfold MaskIfLessThanOrEqual, MaskIfGreaterThanOrEqual. rewrite !sel_ones.
  destruct (x <=? zero - 8 * amp) eqn:B1; [reflexivity|]. destruct (x >=? zero + 8 * amp) eqn:B2; [reflexivity|].
  destruct Hx as [Hx | [Hx | (Ic & Hn & Hs)]]; [lia|lia|].
  rewrite i32_fits in Ic. rewrite (fits_wrap _ Ic) in E6.
  set (s0 := SaturatingRoundingDoublingHighMul 32 (x - zero) (tc_inv_norm tc)) in *.
  unfold FMul in E6. fold s0 in E6.
  assert (Hn' : 0 <= 28 - tc_inv_nexp tc).
  { unfold ShiftLeft, one_shl_int in E6. destruct ((0 <=? 28 - tc_inv_nexp tc) && (28 - tc_inv_nexp tc <=? 31)) eqn:X; [lia|discriminate E6]. }
  rewrite shl_eq in E6 by lia. apply some_inj in E6. subst fin.
  assert (Fs : fits 32 (s0 * 2 ^ (28 - tc_inv_nexp tc))) by (apply i32_fits; exact (conj (Z.lt_le_incl _ _ (proj1 Hs)) (proj2 Hs))).
  assert (Ec : clampZ (int_min 32) (int_max 32) (s0 * 2 ^ (28 - tc_inv_nexp tc)) = s0 * 2 ^ (28 - tc_inv_nexp tc)).
  { revert Hs. generalize (s0 * 2 ^ (28 - tc_inv_nexp tc)). clear. intros z Hz. unfold clampZ. change (int_min 32) with (-2147483648). change (int_max 32) with 2147483647.
    destruct (Z.ltb_spec z (-2147483648)); [lia|]. destruct (Z.ltb_spec 2147483647 z); lia. }
  rewrite Ec in E7. clear Ec.
  apply tanh_lane in E7; [|exact Fs|change (- 2 ^ (32 - 1)) with (-2147483648); apply Z.neq_sym, Z.lt_neq; exact (proj1 Hs)].
  assert (Fz : fits 32 zero) by exact Z0.
  assert (Fi : fits 32 (tc_inv_norm tc)) by (apply i32_fits; exact (conj (Z.lt_le_incl _ _ (proj1 Hin)) (proj2 Hin))).
  assert (Fa : fits 32 (tc_amp_norm tc)) by (apply i32_fits; exact (conj (Z.lt_le_incl _ _ (proj1 Ham)) (proj2 Ham))).
  assert (G : get 32 k (rShl T (rSRDHM T (rSub T A (rDup T zero)) (rDup T (tc_inv_norm tc))) (28 - tc_inv_nexp tc)) = s0 * 2 ^ (28 - tc_inv_nexp tc)).
  { assert (G0 : get 32 k (rSRDHM T (rSub T A (rDup T zero)) (rDup T (tc_inv_norm tc))) = s0).
    { rewrite l_srdhm by (try exact Hk; intros _; rewrite l_dup, fits_wrap by assumption; clear - Hin; lia).
      rewrite l_sub, !l_dup, HA, (fits_wrap _ Fz), (fits_wrap _ Fi), (fits_wrap _ Ic) by exact Hk. reflexivity. }
    rewrite l_shl by (try exact Hk; try lia; rewrite G0; exact Fs). now rewrite G0. }
  destruct (tanh_sim (vo T) 32 k w32 (vo_lane T k Hk) 3 _ th ltac:(lia) ltac:(rewrite G; exact E7)) as (u & U1 & U2).
  assert (u = thv) by congruence. subst u.
  assert (Hsh : 0 <= 31 - tc_amp_exp tc <= 31 /\ sh = Z.shiftr (FMul 32 th (tc_amp_norm tc)) (31 - tc_amp_exp tc)).
  { unfold ShiftRight in E8. destruct ((0 <=? 31 - tc_amp_exp tc) && (31 - tc_amp_exp tc <? 32)) eqn:X; [|discriminate]. split; [lia|congruence]. }
  destruct Hsh as (Hsh & ->).
  rewrite l_add, l_dup, (fits_wrap _ Fz), l_shr by assumption.
  rewrite l_srdhm by (try exact Hk; intros _; rewrite l_dup, fits_wrap by assumption; clear - Ham; lia).
  rewrite l_dup, (fits_wrap _ Fa), U2 by exact Hk. reflexivity.
Qed.
Lemma tanhV_total T m zero amp tc x y : tanh_reg m zero amp tc x = Some y -> forall A, exists v, tanh_regV T m zero amp tc A = Some v.
Proof.
  intros H A. unfold tanh_reg in H. unfold tanh_regV.
  do 5 (apply bind_some in H as (? & -> & H); cbn [bind]).
  destruct (v_tanh_total T (rShl T (rSRDHM T (rSub T A (rDup T zero)) (rDup T (tc_inv_norm tc))) (28 - tc_inv_nexp tc))) as (v & ->).
  cbn [bind]. eauto.
Qed.

(* ------------------------------------------------------------------ *)
(* the other stages with int32 results *)
Lemma quantize_inv m off mult shift x y : fits 32 mult -> quantize_at m off mult shift x = Some y ->
  0 <= shift <= 31 /\ y = rnd_away (wrapS 32 (wrapS 32 (x + off) * mult)) (2 ^ shift).
Proof.
  intros Fm H. unfold quantize_at in H. apply bind_some in H as (a & Ea & H). apply bind_some in H as (p & Ep & H).
  apply norm_wrap in Ea as (-> & _); [|lia]. apply norm_wrap in Ep as (-> & Fp); [|lia]. now apply (rdpot_inv m) in H.
Qed.
Lemma clamp_fits z : fits 32 z -> clampZ (int_min 32) (int_max 32) z = z.
Proof.
  intros F. apply i32_fits in F. unfold i32 in F. unfold clampZ.
  change (int_min 32) with (-2147483648). change (int_max 32) with 2147483647.
  destruct (Z.ltb_spec z (-2147483648)); [lia|]. destruct (Z.ltb_spec 2147483647 z); lia.
Qed.
Lemma scale_inv m mult left right off x y : 0 <= left <= 30 -> fits 32 (x * 2 ^ left) -> fits 32 mult ->
  scale_at m mult left right off x = Some y ->
  0 <= right <= 31 /\ y = wrapS 32 (rnd_away (SaturatingRoundingDoublingHighMul 32 (x * 2 ^ left) mult) (2 ^ right) + off).
Proof.
  intros Hl F Fm H. unfold scale_at in H. rewrite shl_eq in H by exact Hl. cbn [bind] in H.
  rewrite (clamp_fits _ F) in H. apply bind_some in H as (q & Eq & H). apply norm_wrap in H as (-> & _); [|lia].
  apply rdpot_inv in Eq as (Hr & ->); [|apply srdhm_fits; [exact w32|exact F|exact Fm]]. auto.
Qed.
Definition vr (sh : vshape) (R : Z) : Z := match sh with VCol => R | VRow => 1 end.
Definition vc (sh : vshape) (C : Z) : Z := match sh with VCol => 1 | VRow => C end.
Lemma vec_shapes R C sh : vtile R C ->
  In ((R, C), (vr sh R, vc sh C)) bcast_shapes /\
  In (vr sh R, vc sh C) shapes /\
  sub (vr sh R) (vc sh C) R C.
Proof.
  unfold sub. intros [(-> & ->) | [(-> & ->) | [(-> & ->) | [(-> & ->) | (-> & ->)]]]]; destruct sh;
    cbn [vr vc]; (split; [cbn; tauto|split; [cbn; tauto|lia]]).
Qed.
Definition ent_fun (v : vec) (row col i j : Z) : Z := match entry_of v (row + i) (col + j) with Some x => x | None => 0 end.
Lemma load_vmap sh u R C row col : vtile R C ->
  (forall i j, 0 <= i < R -> 0 <= j < C -> (exists x, entry_of (VMap sh u) (row + i) (col + j) = Some x) /\ entry_i32 (VMap sh u) (row + i) (col + j)) ->
  exists b, LoadForBroadcastingV R C (VMap sh u) (pos_of sh row col) = Some b /\
    sview b (vr sh R) (vc sh C) R C (ent_fun (VMap sh u) row col).
Proof.
  intros HT H. destruct (load_vec_spec (VMap sh u) R C (pos_of sh row col) (ent_fun (VMap sh u) row col) HT) as (b & E & V).
  - intros i j Hi Hj. destruct (H i j Hi Hj) as ((x & Ex) & I). unfold ent_fun. rewrite Ex. split.
    + rewrite <- Ex. symmetry. apply (entry_of_get (VMap sh u)).
    + apply i32_fits. now apply I.
  - exists b. split; [exact E|]. destruct sh; exact V.
Qed.
Lemma ent_eq v row col i j x : entry_of v (row + i) (col + j) = Some x -> ent_fun v row col i j = x.
Proof. unfold ent_fun. now intros ->. Qed.

Section Stage.
Variables (T : simd) (m : ovf) (R C row col : Z).
Hypothesis HT : vtile R C.
Variables (b : sblock) (g h : Z -> Z -> Z).
Hypothesis HV : sview b R C R C g.
Let HR : 0 < R. Proof. apply (vtile_shapes R C HT). Qed.
Let HC : 0 < C. Proof. apply (vtile_shapes R C HT). Qed.
Let ty : s_ty b = I32. Proof. apply HV. Qed.
Let rows : s_rows b = R. Proof. apply HV. Qed.
Let cols : s_cols b = C. Proof. apply HV. Qed.
Let gfits i j : 0 <= i < R -> 0 <= j < C -> fits 32 (g i j).
Proof. intros Hi Hj. destruct HV as (_ & _ & _ & _ & H). now apply H. Qed.
Let not1 : ~ (R = 1 /\ C = 1). Proof. apply (vtile_shapes R C HT). Qed.
Definition stage_goal (s : stage) : Prop :=
  (forall i j, 0 <= i < R -> 0 <= j < C ->
     stage_at m s (row + i) (col + j) (g i j) = Some (h i j) /\ stage_safe T s (row + i) (col + j) (g i j)) ->
  exists b', stage_evalV T m s b row col = Some b' /\ sview b' R C R C h.
Ltac at00 H := let X := fresh "H00" in pose proof (H 0 0 ltac:(lia) ltac:(lia)) as X.
Ltac use_on_regs := match goal with
  |- exists b', bind (mapM ?f (s_regs b)) _ = Some b' /\ _ =>
    let E := fresh in let l := fresh "l" in let V := fresh "V" in
    assert (E : exists l, mapM f (s_regs b) = Some l /\ sview (mk_sblock I32 R C l) R C R C h);
    [ apply (on_regs_spec b R C g h f HT HV) | destruct E as (l & E & V); rewrite E; cbn [bind]; rewrite ?rows, ?cols; eexists; split; [reflexivity|exact V] ] end.

Lemma st_quantize off mult shift : stage_goal (SQuantizeDown off mult shift).
Proof.
  intros H. unfold stage_evalV. rewrite ty, rows, cols. cbv zeta. cbn [stage_at stage_safe] in H.
  destruct (H 0 0 ltac:(lia) ltac:(lia)) as (Q0 & Fo & Fm). rewrite i32_fits in Fo, Fm.
  apply quantize_inv in Q0 as (Hs & _); [|exact Fm].
  use_on_regs.
  - intros A. now apply rdpot_total.
  - intros A v k i j Hk Hi Hj Hv HA. destruct (H i j Hi Hj) as (Q & _). apply quantize_inv in Q as (_ & ->); [|exact Fm].
    rewrite (l_rdpot T _ shift v k Hk Hs Hv). f_equal.
    rewrite l_muln, l_add, l_dup, HA, (fits_wrap _ Fo), (fits_wrap _ Fm) by exact Hk. reflexivity.
Qed.
Lemma st_quantize_pc sh off mult shift : stage_goal (SQuantizeDownPC sh off mult shift).
Proof.
  intros H. unfold stage_evalV. rewrite ty, rows, cols. cbv zeta. cbn [stage_at stage_safe] in H.
  assert (H' : forall i j, 0 <= i < R -> 0 <= j < C -> exists o k, entry_of (VMap sh off) (row + i) (col + j) = Some o /\
     entry_of (VMap sh mult) (row + i) (col + j) = Some k /\ fits 32 o /\ fits 32 k /\ quantize_at m o k shift (g i j) = Some (h i j)).
  { intros i j Hi Hj. destruct (H i j Hi Hj) as (Q & I1 & I2). apply bind_some in Q as (o & Eo & Q). apply bind_some in Q as (k & Ek & Q).
    exists o, k. rewrite <- !i32_fits. repeat split; try assumption; first [now apply I1 | now apply I2]. }
  destruct (vec_shapes R C sh HT) as (S1 & S2 & S3). destruct (vtile_shapes R C HT) as (S4 & S5 & _).
  destruct (load_vmap sh mult R C row col HT) as (bm & Em & Vm).
  { intros i j Hi Hj. destruct (H' i j Hi Hj) as (o & k & Eo & Ek & Fo & Fk & _). split; [eauto|]. intros x Ex. apply i32_fits. congruence. }
  destruct (load_vmap sh off R C row col HT) as (bo & Eo & Vo).
  { intros i j Hi Hj. destruct (H' i j Hi Hj) as (o & k & Eo & Ek & Fo & Fk & _). split; [eauto|]. intros x Ex. apply i32_fits. congruence. }
  rewrite Em, Eo. cbn [bind].
  unfold BroadcastAddV, BroadcastMulV.
  destruct (bcast T (Add m 32) (fun A B : Z => Some (rAdd T A B)) (rAdd T) (fun _ _ => True) b bo R C (vr sh R) (vc sh C) R C g (ent_fun (VMap sh off) row col)
      (fun i j => wrapS 32 (g i j + ent_fun (VMap sh off) row col i j)) (fun A B => eq_refl)) as (b1 & E1 & V1);
    [ | exact HR | exact HC | exact S5 | right; exact S1 | exact HV | exact Vo | | ].
  { intros A B k z Hk _ Hz. apply norm_wrap in Hz as (-> & _); [|lia]. now rewrite l_add by exact Hk. }
  { intros i j Hi Hj. split; [exact I|]. split; [|intros X; contradiction].
    destruct (H' i j Hi Hj) as (o & k & Eo' & _ & _ & _ & Q). rewrite (ent_eq _ _ _ _ _ _ Eo'). unfold quantize_at in Q.
    apply bind_some in Q as (a & Ea & _). unfold Add. rewrite Ea. f_equal. now apply norm_wrap in Ea as (-> & _); [|lia]. }
  rewrite E1. cbn [bind].
  destruct (bcast T (Mul m 32) (fun A B : Z => Some (rMul T A B)) (rMul T) (fun _ _ => True) b1 bm R C (vr sh R) (vc sh C) R C
      (fun i j => wrapS 32 (g i j + ent_fun (VMap sh off) row col i j)) (ent_fun (VMap sh mult) row col)
      (fun i j => wrapS 32 (wrapS 32 (g i j + ent_fun (VMap sh off) row col i j) * ent_fun (VMap sh mult) row col i j)) (fun A B => eq_refl)) as (b2 & E2 & V2);
    [ | exact HR | exact HC | exact S5 | right; exact S1 | exact V1 | exact Vm | | ].
  { intros A B k z Hk _ Hz. apply norm_wrap in Hz as (-> & _); [|lia]. now rewrite l_mul by exact Hk. }
  { intros i j Hi Hj. split; [exact I|]. split; [|intros X; contradiction].
    destruct (H' i j Hi Hj) as (o & k & Eo' & Ek' & _ & _ & Q). rewrite (ent_eq _ _ _ _ _ _ Eo'), (ent_eq _ _ _ _ _ _ Ek'). unfold quantize_at in Q.
    apply bind_some in Q as (a & Ea & Q). apply norm_wrap in Ea as (-> & _); [|lia]. apply bind_some in Q as (p & Ep & _).
    unfold Mul. rewrite Ep. f_equal. now apply norm_wrap in Ep as (-> & _); [|lia]. }
  rewrite E2. cbn [bind].
  destruct (H' 0 0 ltac:(lia) ltac:(lia)) as (o0 & k0 & _ & _ & _ & Fk0 & Q0). apply quantize_inv in Q0 as (Hs & _); [|exact Fk0].
  destruct (on_regs_spec b2 R C _ h (fun x => rRDPOT T x shift) HT V2) as (l & El & Vl).
  - intros A. now apply rdpot_total.
  - intros A v k i j Hk Hi Hj Hv HA. destruct (H' i j Hi Hj) as (o & q & Eo' & Ek' & Fo & Fq & Q). apply quantize_inv in Q as (_ & ->); [|exact Fq].
    rewrite (l_rdpot T _ shift v k Hk Hs Hv), HA, (ent_eq _ _ _ _ _ _ Eo'), (ent_eq _ _ _ _ _ _ Ek'). reflexivity.
  - rewrite El. cbn [bind]. eauto.
Qed.
Lemma st_fixedpoint mult shift off : stage_goal (SByFixedPoint mult shift off).
Proof.
  intros H. unfold stage_evalV. rewrite ty, rows, cols. cbv zeta. cbn [stage_at stage_safe] in H.
  destruct (H 0 0 ltac:(lia) ltac:(lia)) as (Q0 & Fm & Fo & _). rewrite i32_fits in Fo, Fm.
  apply bind_some in Q0 as (q & Eq & _).
  apply rdpot_inv in Eq as (Hs & _); [|apply srdhm_fits; [exact w32|apply gfits; lia|exact Fm]].
  use_on_regs.
  - intros A. destruct (rdpot_total T (rSRDHM T A (rDup T mult)) shift Hs) as (v & ->). cbn [bind]. eauto.
  - intros A v k i j Hk Hi Hj Hv HA. destruct (H i j Hi Hj) as (Q & _ & _ & N). apply bind_some in Q as (q' & Eq' & Q).
    apply rdpot_inv in Eq' as (_ & ->); [|apply srdhm_fits; [exact w32|now apply gfits|exact Fm]].
    apply norm_wrap in Q as (-> & _); [|lia].
    apply bind_some in Hv as (u & Eu & Hv). apply some_inj in Hv. subst v.
    rewrite l_add, l_dup, (fits_wrap _ Fo), (l_rdpot T _ shift u k Hk Hs Eu) by exact Hk.
    rewrite l_srdhm by (try exact Hk; intros X; rewrite l_dup, HA, (fits_wrap _ Fm) by exact Hk; now apply N).
    now rewrite l_dup, HA, (fits_wrap _ Fm) by exact Hk.
Qed.
Lemma st_clamp lo hi : stage_goal (SClamp lo hi).
Proof.
  intros H. unfold stage_evalV. rewrite ty, rows, cols. cbv zeta. cbn [stage_at stage_safe] in H.
  destruct (H 0 0 ltac:(lia) ltac:(lia)) as (_ & Fl & Fh). rewrite i32_fits in Fl, Fh.
  use_on_regs; [eauto|]. intros A v k i j Hk Hi Hj Hv HA. destruct (H i j Hi Hj) as (Q & _). apply some_inj in Q. apply some_inj in Hv. subst v.
  rewrite l_min, l_max, !l_dup, HA, (fits_wrap _ Fl), (fits_wrap _ Fh) by exact Hk. rewrite <- Q. rewrite (Z.max_comm lo). apply Z.min_comm.
Qed.
Lemma st_tanh zero amp tc : stage_goal (STanh zero amp tc).
Proof.
  intros H. unfold stage_evalV. rewrite ty, rows, cols. cbv zeta.
  destruct (H 0 0 ltac:(lia) ltac:(lia)) as (Q0 & _).
  use_on_regs.
  - exact (tanhV_total T m zero amp tc _ _ Q0).
  - intros A v k i j Hk Hi Hj Hv HA. destruct (H i j Hi Hj) as (Q & S).
    exact (tanh_stage T m zero amp tc _ _ _ _ A k v Hk HA S Q Hv).
Qed.
Lemma st_bias sh u : stage_goal (SBias (VMap sh u)).
Proof.
  intros H. unfold stage_evalV. rewrite ty, rows, cols. cbv zeta. cbn [stage_at stage_safe] in H.
  destruct (vec_shapes R C sh HT) as (S1 & S2 & S3). destruct (vtile_shapes R C HT) as (S4 & S5 & _).
  destruct (load_vmap sh u R C row col HT) as (bo & Eo & Vo).
  { intros i j Hi Hj. destruct (H i j Hi Hj) as (Q & I1). apply bind_some in Q as (x & Ex & _). eauto. }
  cbn [vec_shape]. rewrite Eo. cbn [bind]. unfold BroadcastAddV.
  destruct (bcast T (Add m 32) (fun A B : Z => Some (rAdd T A B)) (rAdd T) (fun _ _ => True) b bo R C (vr sh R) (vc sh C) R C g (ent_fun (VMap sh u) row col) h (fun A B => eq_refl)) as (b1 & E1 & V1);
    [ | exact HR | exact HC | exact S5 | right; exact S1 | exact HV | exact Vo | | ].
  - intros A B k z Hk _ Hz. apply norm_wrap in Hz as (-> & _); [|lia]. now rewrite l_add by exact Hk.
  - intros i j Hi Hj. split; [exact I|]. split; [|intros X; contradiction].
    destruct (H i j Hi Hj) as (Q & _). apply bind_some in Q as (x & Ex & Q). rewrite (ent_eq _ _ _ _ _ _ Ex). exact Q.
  - eauto.
Qed.
Lemma neg_wrap e n : norm m 32 (- e) = Some n -> n = wrapS 32 (- e).
Proof. intros X. now apply norm_wrap in X as (-> & _); [|lia]. Qed.
Lemma st_scale mult e off : stage_goal (SScaleExp mult e off).
Proof.
  intros H. unfold stage_evalV. rewrite ty, rows, cols. cbv zeta. cbn [stage_at stage_safe] in H.
  destruct (H 0 0 ltac:(lia) ltac:(lia)) as (Q0 & Fm & Fe & Fo & He & F0 & _). rewrite i32_fits in Fo, Fm, F0.
  apply bind_some in Q0 as (n & En & Q0). rewrite En. cbn [bind].
  assert (L : 0 <= Z.max 0 e <= 30) by lia.
  apply scale_inv in Q0 as (Hr & _); [|exact L|exact F0|exact Fm].
  use_on_regs.
  - intros A. destruct (rdpot_total T (rSRDHM T (rShl T A (Z.max 0 e)) (rDup T mult)) (Z.max 0 n) Hr) as (v & ->). cbn [bind]. eauto.
  - intros A v k i j Hk Hi Hj Hv HA. destruct (H i j Hi Hj) as (Q & _ & _ & _ & _ & Fx & N). rewrite i32_fits in Fx.
    rewrite En in Q. cbn [bind] in Q. apply scale_inv in Q as (_ & ->); [|exact L|exact Fx|exact Fm].
    apply bind_some in Hv as (u & Eu & Hv). apply some_inj in Hv. subst v.
    rewrite l_add, l_dup, (fits_wrap _ Fo), (l_rdpot T _ _ u k Hk Hr Eu) by exact Hk.
    assert (G : get 32 k (rShl T A (Z.max 0 e)) = g i j * 2 ^ Z.max 0 e).
    { rewrite l_shl by (try exact Hk; try exact L; rewrite HA; exact Fx). now rewrite HA. }
    rewrite l_srdhm by (try exact Hk; intros X; rewrite l_dup, G, (fits_wrap _ Fm) by exact Hk; now apply N).
    now rewrite l_dup, G, (fits_wrap _ Fm) by exact Hk.
Qed.
Lemma st_scale_pc sh mult ex off : T = Neon -> stage_goal (SScaleExpPC sh mult ex off).
Proof.
  intros ET H. unfold stage_evalV. rewrite ty, rows, cols. cbv zeta. rewrite ET. cbn [stage_at stage_safe] in H.
  assert (H' : forall i j, 0 <= i < R -> 0 <= j < C -> exists k e n, entry_of (VMap sh mult) (row + i) (col + j) = Some k /\
     entry_of (VMap sh ex) (row + i) (col + j) = Some e /\ norm m 32 (- e) = Some n /\ fits 32 k /\ fits 32 e /\ e <= 30 /\
     fits 32 (g i j * 2 ^ Z.max 0 e) /\ scale_at m k (Z.max 0 e) (Z.max 0 n) off (g i j) = Some (h i j)).
  { intros i j Hi Hj. destruct (H i j Hi Hj) as (Q & _ & I1 & I2 & S). apply bind_some in Q as (k & Ek & Q). apply bind_some in Q as (e & Ee & Q).
    apply bind_some in Q as (n & En & Q). destruct (S k e Ek Ee) as (S1 & S2 & _). exists k, e, n. rewrite <- !i32_fits.
    split; [exact Ek|]. split; [exact Ee|]. split; [exact En|]. split; [now apply I1|]. split; [now apply I2|]. auto. }
  destruct (H 0 0 ltac:(lia) ltac:(lia)) as (_ & Fo & _). rewrite i32_fits in Fo.
  destruct (vec_shapes R C sh HT) as (S1 & S2 & S3). destruct (vtile_shapes R C HT) as (S4 & S5 & _).
  destruct (load_vmap sh ex R C row col HT) as (be & Ee & Ve).
  { intros i j Hi Hj. destruct (H' i j Hi Hj) as (k & e & n & Ek & Ee & _ & _ & Fe & _). split; [eauto|]. intros x Ex. apply i32_fits. congruence. }
  destruct (load_vmap sh mult R C row col HT) as (bm & Em & Vm).
  { intros i j Hi Hj. destruct (H' i j Hi Hj) as (k & e & n & Ek & Ee' & _ & Fk & _). split; [eauto|]. intros x Ex. apply i32_fits. congruence. }
  rewrite Ee. cbn [bind]. rewrite Em. cbn [bind].
  set (e_ := ent_fun (VMap sh ex) row col) in *. set (k_ := ent_fun (VMap sh mult) row col) in *.
  (* shifts *)
  destruct (regs_map be (vr sh R) (vc sh C) R C e_ (fun i j => Z.max 0 (e_ i j)) (fun x => Some (Z.max x 0))
      (fun x : Z => Some (rMax Neon x (rDup Neon 0))) (fun x => rMax Neon x (rDup Neon 0)) S2 S3 HR HC Ve (fun A => eq_refl)) as (bl & El & Vl).
  { intros A k i j Hk Hi Hj HA. rewrite l_max, l_dup, HA by exact Hk. apply Z.max_comm. }
  { intros _ i j Hi Hj. split; [now rewrite Z.max_comm|]. destruct Ve as (_ & _ & _ & _ & Ve). destruct (Ve i j Hi Hj) as (_ & F).
    apply i32_fits in F. apply (proj1 (i32_fits _)). unfold i32 in F |- *. clear - F. lia. }
  rewrite El. cbn [bind].
  destruct (regs_map be (vr sh R) (vc sh C) R C e_ (fun i j => Z.max 0 (wrapS 32 (- e_ i j))) (fun x => let* n := norm m 32 (- x) in Some (Z.max n 0))
      (fun x : Z => Some (rMax Neon (vneg 32 x) (rDup Neon 0))) (fun x => rMax Neon (vneg 32 x) (rDup Neon 0)) S2 S3 HR HC Ve (fun A => eq_refl)) as (br & Er & Vr).
  { intros A k i j Hk Hi Hj HA. rewrite l_max, l_dup by exact Hk. rewrite (g_vneg 32 k w32 Hk), HA. apply Z.max_comm. }
  { intros _ i j Hi Hj. destruct (H' i j Hi Hj) as (k & e & n & Ek & Ee' & En & _). subst e_. rewrite (ent_eq _ _ _ _ _ _ Ee').
    rewrite En. cbn [bind]. apply norm_wrap in En as (-> & F); [|lia]. split; [now rewrite Z.max_comm|].
    apply i32_fits in F. apply (proj1 (i32_fits _)). unfold i32 in F |- *. clear - F. lia. }
  rewrite Er. cbn [bind]. unfold BroadcastShiftLeftV, BroadcastSRDHMV, BroadcastRDPOTV.
  destruct (bcast Neon (ShiftLeft m 32) (fun A B : Z => Some (neon_ShiftLeftV 32 A B)) (neon_ShiftLeftV 32) (fun x y => 0 <= y <= 30 /\ fits 32 (x * 2 ^ y)) b bl R C
      (vr sh R) (vc sh C) R C g (fun i j => Z.max 0 (e_ i j)) (fun i j => g i j * 2 ^ Z.max 0 (e_ i j)) (fun A B => eq_refl)) as (b1 & E1 & V1);
    [ | exact HR | exact HC | exact S5 | right; exact S1 | exact HV | exact Vl | | ].
  { intros A B k z Hk (P1 & P2) Hz. rewrite shl_eq in Hz by exact P1. apply some_inj in Hz. subst z.
    rewrite (g_neon_shlv 32 k w32 Hk) by lia. rewrite (fits_wrap _ P2). symmetry. now apply clamp_fits. }
  { intros i j Hi Hj. destruct (H' i j Hi Hj) as (k & e & n & Ek & Ee' & En & _ & _ & E30 & F & _). subst e_. rewrite (ent_eq _ _ _ _ _ _ Ee').
    split; [split; [lia|exact F]|]. split; [|intros X; contradiction]. rewrite shl_eq by lia. f_equal. now apply clamp_fits. }
  rewrite E1. cbn [bind].
  destruct (bcast Neon (fun x y => Some (SaturatingRoundingDoublingHighMul 32 x y)) (fun A B : Z => Some (rSRDHM Neon A B)) (rSRDHM Neon) (fun _ _ => True) b1 bm R C
      (vr sh R) (vc sh C) R C (fun i j => g i j * 2 ^ Z.max 0 (e_ i j)) k_
      (fun i j => SaturatingRoundingDoublingHighMul 32 (g i j * 2 ^ Z.max 0 (e_ i j)) (k_ i j)) (fun A B => eq_refl)) as (b2 & E2 & V2);
    [ | exact HR | exact HC | exact S5 | right; exact S1 | exact V1 | exact Vm | | ].
  { intros A B k z Hk _ Hz. apply some_inj in Hz. subst z. apply l_srdhm; [exact Hk|discriminate]. }
  { intros i j Hi Hj. split; [exact I|]. split; [reflexivity|intros X; contradiction]. }
  rewrite E2. cbn [bind].
  assert (Q' : forall i j, 0 <= i < R -> 0 <= j < C -> 0 <= Z.max 0 (wrapS 32 (- e_ i j)) <= 31 /\
     h i j = wrapS 32 (rnd_away (SaturatingRoundingDoublingHighMul 32 (g i j * 2 ^ Z.max 0 (e_ i j)) (k_ i j)) (2 ^ Z.max 0 (wrapS 32 (- e_ i j))) + off)).
  { intros i j Hi Hj. destruct (H' i j Hi Hj) as (k & e & n & Ek & Ee' & En & Fk & _ & E30 & F & Q). subst e_ k_.
    rewrite (ent_eq _ _ _ _ _ _ Ee'), (ent_eq _ _ _ _ _ _ Ek). apply norm_wrap in En as (-> & _); [|lia].
    apply scale_inv in Q; [exact Q|lia|exact F|exact Fk]. }
  destruct (bcast Neon (RoundingDivideByPOT m 32) (fun A B : Z => Some (neon_RoundingDivideByPOTV 32 A B)) (neon_RoundingDivideByPOTV 32)
      (fun x y => fits 32 x) b2 br R C
      (vr sh R) (vc sh C) R C (fun i j => SaturatingRoundingDoublingHighMul 32 (g i j * 2 ^ Z.max 0 (e_ i j)) (k_ i j))
      (fun i j => Z.max 0 (wrapS 32 (- e_ i j)))
      (fun i j => rnd_away (SaturatingRoundingDoublingHighMul 32 (g i j * 2 ^ Z.max 0 (e_ i j)) (k_ i j)) (2 ^ Z.max 0 (wrapS 32 (- e_ i j)))) (fun A B => eq_refl)) as (b3 & E3 & V3);
    [ | exact HR | exact HC | exact S5 | right; exact S1 | exact V2 | exact Vr | | ].
  { intros A B k z Hk P Hz. apply rdpot_inv in Hz as (P2 & ->); [|exact P]. apply neon_rdpotv; [exact w32|exact Hk|exact P2]. }
  { intros i j Hi Hj. destruct (Q' i j Hi Hj) as (P2 & _). destruct V2 as (_ & _ & _ & _ & V2). destruct (V2 i j Hi Hj) as (_ & F2).
    split; [exact F2|]. split; [|intros X; contradiction]. apply rdpot_eq; [exact w32|exact F2|lia]. }
  rewrite E3. cbn [bind].
  destruct (on_regs_spec b3 R C _ h (fun x => Some (rAdd Neon x (rDup Neon off))) HT V3) as (l & El' & Vl').
  - eauto.
  - intros A v k i j Hk Hi Hj Hv HA. apply some_inj in Hv. subst v. destruct (Q' i j Hi Hj) as (_ & ->).
    now rewrite l_add, l_dup, HA, (fits_wrap _ Fo) by exact Hk.
  - rewrite El'. cbn [bind]. eauto.
Qed.
Lemma stage_simd s : stage_ty T s = Some I32 -> stage_goal s.
Proof.
  destruct s; cbn [stage_ty]; try discriminate; intros Hty.
  - apply st_quantize.
  - apply st_quantize_pc.
  - apply st_fixedpoint.
  - apply st_scale.
  - apply st_scale_pc. destruct T; [discriminate|reflexivity|discriminate].
  - destruct T; discriminate.
  - destruct T; discriminate.
  - destruct bias as [sh u|sh x n]; [apply st_bias|discriminate].
  - apply st_clamp.
  - apply st_tanh.
Qed.
End Stage.

(* ------------------------------------------------------------------ *)
(* results of a stage fit its type *)
Lemma rnd_fits x e : fits 32 x -> 0 <= e <= 31 -> fits 32 (rnd_away x (2 ^ e)).
Proof.
  intros F He. pose proof (l_rdpot Neon (rDup Neon x) e _ 0 ltac:(lia) He eq_refl) as P.
  rewrite l_dup, (fits_wrap _ F) in P by lia. rewrite <- P. apply get_fits. lia.
Qed.
Lemma quantize_fits m off mult shift x y : fits 32 mult -> quantize_at m off mult shift x = Some y -> fits 32 y.
Proof. intros Fm H. apply quantize_inv in H as (Hs & ->); [|exact Fm]. apply rnd_fits; [|exact Hs]. apply fits_int. apply wrapS_range. lia. Qed.
Lemma stage_fits T m s r c x y : stage_ty T s = Some I32 -> fits 32 x -> stage_safe T s r c x -> stage_at m s r c x = Some y -> fits 32 y.
Proof.
  intros Ht Fx HS H. destruct s; cbn [stage_ty] in Ht; try discriminate Ht; cbn [stage_at] in H.
  - apply quantize_fits in H; [exact H|]. apply i32_fits. apply HS.
  - apply bind_some in H as (o & Eo & H). apply bind_some in H as (k & Ek & H). apply quantize_fits in H; [exact H|]. apply i32_fits. now apply HS.
  - apply bind_some in H as (q & Eq & H). now apply norm_wrap in H as (_ & H); [|lia].
  - apply bind_some in H as (n & En & H). unfold scale_at in H. do 2 apply bind_some in H as (? & _ & H). now apply norm_wrap in H as (_ & H); [|lia].
  - do 3 apply bind_some in H as (? & _ & H). unfold scale_at in H. do 2 apply bind_some in H as (? & _ & H). now apply norm_wrap in H as (_ & H); [|lia].
  - destruct T; discriminate.
  - destruct T; discriminate.
  - apply bind_some in H as (q & Eq & H). now apply norm_wrap in H as (_ & H); [|lia].
  - apply some_inj in H. subst y. destruct HS as (S1 & S2). apply i32_fits in Fx. apply (proj1 (i32_fits _)). unfold i32 in *. lia.
  - match type of H with tanh_reg _ ?z ?a ?t _ = _ =>
      destruct (tanhV_total T m z a t x y H (rDup T x)) as (v & Ev);
      assert (G : get 32 0 (rDup T x) = x) by (rewrite l_dup by lia; now apply fits_wrap);
      rewrite <- (tanh_stage T m z a t r c x y (rDup T x) 0 v ltac:(lia) G HS H Ev) end. apply get_fits. lia.
Qed.
(* the value a cast makes of x *)
Definition cast_val (s : stage) (x : Z) : Z :=
  match s with SSatU8 => sat_of U8 x | SSatI8 => sat_of I8 x | SSatI16 => sat_of I16 x | STruncU8 => x mod 256 | _ => x end.
Lemma sat_as t x : t <> I32 -> as_ty t (sat_of t x) = sat_of t x.
Proof.
  intros Ht. destruct t; cbn [as_ty sat_of]; try contradiction.
  all: first [ unfold wrapU; apply Z.mod_small; change (2 ^ 8) with 256; lia
             | cbn [width]; apply wrapS_small; [lia|]; unfold int_min, int_max; cbn; lia ].
Qed.
Lemma cast_cases T s t : stage_ty T s = Some t -> t <> I32 ->
  s = SSatU8 /\ t = U8 \/ s = SSatI8 /\ t = I8 /\ T = Neon \/ s = SSatI16 /\ t = I16 \/ s = STruncU8 /\ t = U8 /\ exists v, T = Mips v.
Proof.
  intros Ht N. destruct s; cbn [stage_ty] in Ht; try (injection Ht as <-; contradiction); try discriminate Ht.
  - destruct T; try discriminate Ht; injection Ht as <-; contradiction.
  - injection Ht as <-. auto.
  - destruct T; try discriminate Ht; injection Ht as <-. auto.
  - injection Ht as <-. auto.
  - destruct T; try discriminate Ht; injection Ht as <-. eauto 8.
  - match type of Ht with context [match ?v with VMap _ _ => _ | VDup _ _ _ => _ end] => destruct v end; [injection Ht as <-; contradiction|discriminate Ht].
Qed.
Lemma cast_at T m s t r c x : stage_ty T s = Some t -> t <> I32 ->
  stage_at m s r c x = Some (cast_val s x) /\ as_ty t (cast_val s x) = cast_val s x.
Proof.
  intros Ht N. destruct (cast_cases T s t Ht N) as [(-> & ->) | [(-> & -> & _) | [(-> & ->) | (-> & -> & _)]]];
    (split; [reflexivity|]); try (now apply sat_as).
  cbn [as_ty cast_val]. unfold wrapU. apply Z.mod_mod. discriminate.
Qed.
Lemma pipe_fits T m t r c : forall p x y, pipe_ty T p = Some t -> fits 32 x -> pipe_safe T m p r c x -> pipe_at m p r c x = Some y -> as_ty t y = y.
Proof.
  induction p as [|s p IH]; intros x y Ht Fx HS H; cbn [pipe_ty pipe_at pipe_safe] in *.
  - injection Ht as <-. apply some_inj in H. subst y. now apply fits_wrap.
  - apply bind_some in H as (z & Ez & H). destruct HS as (S1 & S2). specialize (S2 z Ez).
    destruct (stage_ty T s) as [u|] eqn:Es; [|discriminate]. destruct (sty_eq_dec u I32) as [->|N].
    + apply (IH z y Ht); [|exact S2|exact H]. now apply (stage_fits T m s r c x z).
    + destruct (cast_at T m s u r c x Es N) as (Q & Q'). destruct u; try contradiction; (destruct p; [|discriminate]);
        injection Ht as <-; cbn [pipe_at] in H; apply some_inj in H; subst y; rewrite Q in Ez; apply some_inj in Ez; subst z; exact Q'.
Qed.

(* ------------------------------------------------------------------ *)
(* casts and pipelines *)
Definition out_block (T : simd) (b : sblock) (t : sty) (R C : Z) (h : Z -> Z -> Z) : Prop :=
  s_ty b = t /\ s_rows b = R /\ s_cols b = C /\ Z.of_nat (length (s_regs b)) = R * C / lanes_of T t (R * C) /\
  forall i j, 0 <= i < R -> 0 <= j < C -> entry T b i j = h i j.
Lemma vtile_pos4 R C i j : vtile R C -> 0 <= i < R -> 0 <= j < C ->
  (if R =? 1 then 0 else i) = i /\ (if C =? 1 then 0 else j) = j /\ 0 <= i + R * j < R * C /\ (R * C =? 1) = false /\
  (4 <=? R * C) = true.
Proof. intros [(-> & ->) | [(-> & ->) | [(-> & ->) | [(-> & ->) | (-> & ->)]]]] Hi Hj; repeat split; try reflexivity; cbn [Z.eqb Pos.eqb]; lia. Qed.
Lemma sview_cells b R C g i j : vtile R C -> sview b R C R C g -> 0 <= i < R -> 0 <= j < C ->
  get 32 ((i + R * j) mod 4) (nthZ (s_regs b) ((i + R * j) / 4)) = g i j.
Proof.
  intros HT (_ & E2 & E3 & _ & E5) Hi Hj. destruct (vtile_pos4 R C i j HT Hi Hj) as (X1 & X2 & X3 & X4 & _).
  destruct (E5 i j Hi Hj) as (C1 & _). unfold cell, s_count, sreg in C1. now rewrite E2, E3, X1, X2, X4 in C1.
Qed.
Lemma sview_out T b R C g : vtile R C -> sview b R C R C g -> out_block T b I32 R C g.
Proof.
  intros HT HV. pose proof HV as (E1 & E2 & E3 & E4 & E5).
  assert (L : lanes_of T I32 (R * C) = 4 /\ (R * C =? 1) = false)
    by (destruct HT as [(-> & ->) | [(-> & ->) | [(-> & ->) | [(-> & ->) | (-> & ->)]]]]; destruct T; split; reflexivity).
  destruct L as (L & N). split; [exact E1|]. split; [exact E2|]. split; [exact E3|]. rewrite L. rewrite N in E4. split; [exact E4|].
  intros i j Hi Hj. rewrite entry_lval. unfold s_count. rewrite E1, E2, E3, L. unfold lval. cbn [Z.eqb Pos.eqb width].
  rewrite as_i32. exact (sview_cells b R C g i j HT HV Hi Hj).
Qed.
Lemma cast_block T m s t b R C row col g : vtile R C -> sview b R C R C g -> stage_ty T s = Some t -> t <> I32 ->
  exists b', stage_evalV T m s b row col = Some b' /\ out_block T b' t R C (fun i j => cast_val s (g i j)).
Proof.
  intros HT HV Ht N.
  pose proof HV as (E1 & E2 & E3 & E4 & E5).
  assert (L : R * C = 4 * Z.of_nat (length (s_regs b)) /\ In (length (s_regs b)) [1; 2; 4; 8]%nat).
  { destruct HT as [(-> & ->) | [(-> & ->) | [(-> & ->) | [(-> & ->) | (-> & ->)]]]];
      match type of E4 with _ = ?v => let x := eval vm_compute in v in change v with x in E4 end; cbn [In]; lia. }
  destruct L as (L & HL).
  assert (X : exists l, stage_evalV T m s b row col = Some (mk_sblock t R C l) /\
    Z.of_nat (length l) = 4 * Z.of_nat (length (s_regs b)) / lanes_of T t (4 * Z.of_nat (length (s_regs b))) /\
    forall p, 0 <= p < 4 * Z.of_nat (length (s_regs b)) ->
      lval t (lanes_of T t (4 * Z.of_nat (length (s_regs b)))) l p = cast_val s (get 32 (p mod 4) (nthZ (s_regs b) (p / 4)))).
  { unfold stage_evalV. rewrite E1, E2, E3. cbv zeta.
    destruct (cast_cases T s t Ht N) as [(-> & ->) | [(-> & -> & ->) | [(-> & ->) | (-> & -> & v & ->)]]].
    - destruct (cast_spec T U8 (s_regs b) ltac:(destruct T; exact I) HL) as (l & -> & Ll & Vl). exists l. auto.
    - destruct (cast_spec Neon I8 (s_regs b) I HL) as (l & -> & Ll & Vl). exists l. auto.
    - destruct (cast_spec T I16 (s_regs b) ltac:(destruct T; exact I) HL) as (l & -> & Ll & Vl). exists l. auto.
    - destruct (trunc_spec v (s_regs b) HL) as (l & -> & Ll & Vl). exists l. auto. }
  destruct X as (l & E & Ll & Vl).
  rewrite E. eexists. split; [reflexivity|]. do 3 (split; [reflexivity|]). cbn [s_regs]. rewrite L. split; [exact Ll|].
  intros i j Hi Hj. rewrite entry_lval. unfold s_count. cbn [s_ty s_rows s_cols s_regs]. rewrite L.
  destruct (vtile_pos4 R C i j HT Hi Hj) as (_ & _ & X3 & _). rewrite Vl by lia. f_equal. exact (sview_cells b R C g i j HT HV Hi Hj).
Qed.
Lemma out_ext T b t R C g h : (forall i j, 0 <= i < R -> 0 <= j < C -> g i j = h i j) -> out_block T b t R C g -> out_block T b t R C h.
Proof. intros E (H1 & H2 & H3 & H4 & H5). repeat (split; [assumption|]). intros i j Hi Hj. rewrite <- E by assumption. now apply H5. Qed.
Theorem pipe_simd T m R C row col t h : vtile R C -> forall p b g, sview b R C R C g -> pipe_ty T p = Some t ->
  (forall i j, 0 <= i < R -> 0 <= j < C -> pipe_at m p (row + i) (col + j) (g i j) = Some (h i j) /\ pipe_safe T m p (row + i) (col + j) (g i j)) ->
  exists b', pipeline_evalV T m p b row col = Some b' /\ out_block T b' t R C h.
Proof.
  intros HT. induction p as [|s p IH]; intros b g HV Ht H; cbn [pipe_ty pipeline_evalV] in *.
  - injection Ht as <-. exists b. split; [reflexivity|]. apply (out_ext T b I32 R C g h); [|now apply sview_out].
    intros i j Hi Hj. destruct (H i j Hi Hj) as (E & _). cbn [pipe_at] in E. congruence.
  - cbn [pipe_at pipe_safe] in H. destruct (stage_ty T s) as [u|] eqn:Es; [|discriminate]. destruct (sty_eq_dec u I32) as [->|N].
    + destruct (stage_simd T m R C row col HT b g (fun i j => match stage_at m s (row + i) (col + j) (g i j) with Some z => z | None => 0 end) HV s Es) as (b1 & E1 & V1).
      { intros i j Hi Hj. destruct (H i j Hi Hj) as (E & S & _). apply bind_some in E as (z & -> & _). auto. }
      rewrite E1. cbn [bind]. apply (IH b1 _ V1 Ht). intros i j Hi Hj. destruct (H i j Hi Hj) as (E & _ & S). apply bind_some in E as (z & Ez & E).
      rewrite Ez. auto.
    + destruct (cast_block T m s u b R C row col g HT HV Es N) as (b1 & E1 & V1). rewrite E1. cbn [bind].
      assert (X : p = [] /\ u = t) by (destruct u; try contradiction; (destruct p; [|discriminate]); injection Ht as <-; auto).
      destruct X as (-> & ->). exists b1. split; [reflexivity|]. apply (out_ext T b1 t R C _ h) with (2 := V1).
      intros i j Hi Hj. destruct (H i j Hi Hj) as (E & _). destruct (cast_at T m s t (row + i) (col + j) (g i j) Es N) as (Q & _).
      rewrite Q in E. cbn in E. congruence.
Qed.
