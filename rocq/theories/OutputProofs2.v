From Verif Require Import Base BaseLemmas FixedPointModel FixedPointSpec FixedPointProofs CommonModel PackModel OutputModel OutputSpec OutputProofs
  GemmModel GemmProofs5.

Lemma mapM_ext {A B} (f g : A -> option B) l : (forall x, In x l -> f x = g x) -> mapM f l = mapM g l.
Proof. induction l as [|a l IH]; intros H; [reflexivity|]. cbn. rewrite (H a) by (left; reflexivity). rewrite IH; [reflexivity|]. intros x Hx. apply H. right. exact Hx. Qed.
Lemma tile_is R C g : is_block (tile R C g) R C g.
Proof. repeat split. Qed.
Lemma is_tile b R C g : is_block b R C g -> b = tile R C g.
Proof. destruct b as [a c l]. intros (E1 & E2 & E3). cbn in *. subst. reflexivity. Qed.

Lemma pipeline_tile m p R C g h row col : 0 < R -> 0 < C ->
  (forall r c, 0 <= r < R -> 0 <= c < C -> pipe_at m p (row + r) (col + c) (g r c) = Some (h r c)) ->
  pipeline_eval m p (tile R C g) row col = Some (tile R C h).
Proof.
  intros HR HC H. destruct (pipeline_eval_spec m R C row col HR HC p (tile R C g) g h (tile_is R C g) H) as (b & E & Hb).
  rewrite E. f_equal. apply is_tile. exact Hb.
Qed.
Lemma stage_tile m s R C g h row col : 0 < R -> 0 < C ->
  (forall r c, 0 <= r < R -> 0 <= c < C -> stage_at m s (row + r) (col + c) (g r c) = Some (h r c)) ->
  stage_eval m s (tile R C g) row col = Some (tile R C h).
Proof.
  intros HR HC H. destruct (stage_eval_spec m R C row col HR HC s (tile R C g) g h (tile_is R C g) H) as (b & E & Hb).
  rewrite E. f_equal. apply is_tile. exact Hb.
Qed.
Lemma Execute_tile m p R C g h row col dst drow dcol : 0 < R -> 0 < C ->
  (forall r c, 0 <= r < R -> 0 <= c < C -> pipe_at m p (row + r) (col + c) (g r c) = Some (h r c)) ->
  Execute m p (tile R C g) dst row col drow dcol =
    Some (map (fun i => (mm_addr dst (drow + i / C) (dcol + i mod C), h (i / C) (i mod C))) (zrange (R * C))).
Proof. intros HR HC H. eapply Execute_spec; [exact HR|exact HC|apply tile_is|exact H]. Qed.

Lemma fits_norm m z : fits 32 z -> norm m 32 z = Some z.
Proof. intros H. apply norm_fits; [lia|]. apply fits_int. exact H. Qed.
Lemma w32 : w1632 32. Proof. right. reflexivity. Qed.

Lemma quantize_eq m off mult shift x : 0 <= shift <= 31 -> fits 32 (x + off) -> fits 32 ((x + off) * mult) ->
  quantize_at m off mult shift x = Some (rnd_away ((x + off) * mult) (2 ^ shift)).
Proof.
  intros Hs H1 H2. unfold quantize_at. rewrite fits_norm by exact H1. cbn [bind]. rewrite fits_norm by exact H2. cbn [bind].
  apply rdpot_eq; [exact w32|exact H2|lia].
Qed.

Lemma quantize_down_full m off mult shift R C row col g : 0 < R -> 0 < C -> 0 <= shift <= 31 ->
  (forall r c, 0 <= r < R -> 0 <= c < C -> fits 32 (g r c + off) /\ fits 32 ((g r c + off) * mult)) ->
  exists q, stage_eval m (SQuantizeDown off mult shift) (tile R C g) row col = Some (tile R C q) /\
    forall r c, 0 <= r < R -> 0 <= c < C -> nearest_away (q r c) ((g r c + off) * mult) (2 ^ shift).
Proof.
  intros HR HC Hs H. exists (fun r c => rnd_away ((g r c + off) * mult) (2 ^ shift)). split.
  - apply stage_tile; [exact HR|exact HC|]. intros r c Hr Hc. cbn [stage_at]. destruct (H r c Hr Hc). apply quantize_eq; assumption.
  - intros r c _ _. apply rnd_away_nearest. apply Z.pow_pos_nonneg; lia.
Qed.
Lemma quantize_down_pc_full m sh voff vmult shift R C row col g off mult : 0 < R -> 0 < C -> 0 <= shift <= 31 ->
  vec_covers sh voff row col R C off -> vec_covers sh vmult row col R C mult ->
  (forall r c, 0 <= r < R -> 0 <= c < C -> fits 32 (g r c + off r c) /\ fits 32 ((g r c + off r c) * mult r c)) ->
  exists q, stage_eval m (SQuantizeDownPC sh voff vmult shift) (tile R C g) row col = Some (tile R C q) /\
    forall r c, 0 <= r < R -> 0 <= c < C -> nearest_away (q r c) ((g r c + off r c) * mult r c) (2 ^ shift).
Proof.
  intros HR HC Hs V1 V2 H. exists (fun r c => rnd_away ((g r c + off r c) * mult r c) (2 ^ shift)). split.
  - apply stage_tile; [exact HR|exact HC|]. intros r c Hr Hc. cbn [stage_at].
    assert (E1 : entry_of (VMap sh voff) (row + r) (col + c) = Some (off r c)) by (specialize (V1 r c Hr Hc); destruct sh; exact V1).
    assert (E2 : entry_of (VMap sh vmult) (row + r) (col + c) = Some (mult r c)) by (specialize (V2 r c Hr Hc); destruct sh; exact V2).
    rewrite E1, E2. cbn [bind]. destruct (H r c Hr Hc). apply quantize_eq; assumption.
  - intros r c _ _. apply rnd_away_nearest. apply Z.pow_pos_nonneg; lia.
Qed.

Lemma documented_up n shift : 0 <= shift -> documented_shift n shift = rnd_up n (2 ^ shift).
Proof.
  intros Hs. unfold documented_shift, rnd_up. pose proof (Z.pow_pos_nonneg 2 shift ltac:(lia) Hs).
  destruct (shift <? 1) eqn:E.
  - replace shift with 0 by lia. cbn [Z.pow]. change (2 * 1) with 2. rewrite Z.add_0_r, Z.div_1_r. lia.
  - replace (2 ^ shift) with (2 * 2 ^ (shift - 1)) by (rewrite <- Z.pow_succ_r by lia; f_equal; lia).
    set (h := 2 ^ (shift - 1)) in *. replace (2 * n + 2 * h) with (2 * (n + h)) by lia.
    rewrite Z.div_mul_cancel_l; lia.
Qed.
Lemma away_vs_documented q n shift : 0 <= shift -> nearest_away q n (2 ^ shift) ->
  (q = documented_shift n shift <-> ~ (n < 0 /\ is_tie n (2 ^ shift))).
Proof.
  intros Hs Hq. pose proof (Z.pow_pos_nonneg 2 shift ltac:(lia) Hs) as Hp. rewrite documented_up by exact Hs.
  assert (E : q = rnd_away n (2 ^ shift)) by (apply (nearest_away_unique _ _ n (2 ^ shift)); [exact Hp|exact Hq|apply rnd_away_nearest; exact Hp]).
  destruct (Z.lt_ge_cases n 0) as [Hn|Hn].
  - rewrite E, rnd_away_neg by lia. unfold rnd_up, is_tie. set (d := 2 ^ shift) in *. split.
    + intros Eq (_ & k & Ek). pose proof (Z.div_mod (2 * n + d) (2 * d) ltac:(lia)). pose proof (Z.mod_pos_bound (2 * n + d) (2 * d) ltac:(lia)).
      assert (A : 2 * n + d = (k + 1) * (2 * d)) by lia. rewrite A in Eq. rewrite Z.div_mul in Eq by lia.
      pose proof (Z.mul_div_le ((k + 1) * (2 * d) - 1) (2 * d) ltac:(lia)). replace (2 * n + d - 1) with ((k + 1) * (2 * d) - 1) in Eq by lia.
      rewrite Eq in H1. lia.
    + intros Hnt. pose proof (Z.div_mod (2 * n + d) (2 * d) ltac:(lia)) as D. pose proof (Z.mod_pos_bound (2 * n + d) (2 * d) ltac:(lia)) as B.
      set (k := (2 * n + d) / (2 * d)) in *. destruct (Z.eq_dec ((2 * n + d) mod (2 * d)) 0) as [E0|E0].
      * exfalso. apply Hnt. split; [exact Hn|]. exists (k - 1). lia.
      * symmetry. apply Z.div_unique with ((2 * n + d) mod (2 * d) - 1); lia.
  - rewrite E, rnd_away_nonneg by lia. split; [intros _ [? _]; lia|reflexivity].
Qed.
Lemma documented_tie_refuted : exists x, fits 32 x /\
  stage_eval Trap (SQuantizeDown 0 1 1) (tile 1 1 (fun _ _ => x)) 0 0 <> Some (tile 1 1 (fun _ _ => documented_shift x 1)).
Proof. exists (-1). split; [unfold fits; lia|]. vm_compute. discriminate. Qed.

(* ------------------------------------------------------------------ *)
(* fixed point scaling *)
Lemma rnd_up_mono a b d : 0 < d -> a <= b -> rnd_up a d <= rnd_up b d.
Proof. intros Hd H. unfold rnd_up. apply Z.div_le_mono; lia. Qed.
Lemma rnd_away_mono a b d : 0 < d -> a <= b -> rnd_away a d <= rnd_away b d.
Proof.
  intros Hd H. destruct (Z.lt_ge_cases b 0) as [Hb|Hb].
  - rewrite !rnd_away_neg by lia. apply Z.div_le_mono; lia.
  - destruct (Z.lt_ge_cases a 0) as [Ha|Ha].
    + rewrite rnd_away_neg, rnd_away_nonneg by lia. unfold rnd_up. apply Z.div_le_mono; lia.
    + rewrite !rnd_away_nonneg by lia. apply rnd_up_mono; lia.
Qed.
Lemma srdhm_mono a b k : fits 32 a -> fits 32 b -> fits 32 k -> 0 <= k -> a <= b ->
  SaturatingRoundingDoublingHighMul 32 a k <= SaturatingRoundingDoublingHighMul 32 b k.
Proof.
  intros Ha Hb Hk H0 H. rewrite !srdhm_eq by (exact w32 || assumption).
  replace (k =? int_min 32) with false by (unfold int_min; cbn; lia). rewrite !andb_false_r.
  apply Z.div_le_mono; [lia|]. assert (a * k <= b * k) by (apply Z.mul_le_mono_nonneg_r; lia). lia.
Qed.

Definition scaled (mult left right off x : Z) : Z :=
  rnd_away (SaturatingRoundingDoublingHighMul 32 (clamp_int 32 (x * 2 ^ left)) mult) (2 ^ right) + off.
Lemma scale_eq m mult left right off x : fits 32 x -> fits 32 mult -> 0 <= left <= 30 -> 0 <= right <= 31 ->
  fits 32 (scaled mult left right off x) ->
  scale_at m mult left right off x = Some (scaled mult left right off x).
Proof.
  intros Hx Hm Hl Hr Hf. unfold scale_at. rewrite shl_eq by exact Hl. cbn [bind].
  assert (Hc : fits 32 (clamp_int 32 (x * 2 ^ left))) by (apply clamp_int_fits; lia).
  change (clampZ (int_min 32) (int_max 32) (x * 2 ^ left)) with (clamp_int 32 (x * 2 ^ left)).
  rewrite rdpot_eq by (exact w32 || (apply srdhm_fits; [exact w32|exact Hc|exact Hm]) || lia). cbn [bind].
  apply fits_norm. exact Hf.
Qed.
Lemma clamp_id w x : fits w x -> clamp_int w x = x.
Proof. unfold fits, clamp_int, clampZ. intros H. destruct (x <? _) eqn:?; [lia|]. destruct (_ <? x) eqn:?; lia. Qed.
Lemma clamp_mono w x y : 1 <= w -> x <= y -> clamp_int w x <= clamp_int w y.
Proof. unfold clamp_int, clampZ. intros Hw H. assert (0 < 2 ^ (w - 1)) by (apply Z.pow_pos_nonneg; lia). repeat match goal with |- context [if ?b then _ else _] => destruct b eqn:? end; lia. Qed.

Lemma scaled_error mult left right off x :
  fits 32 mult -> 0 <= left -> 0 <= right -> fits 32 (x * 2 ^ left) ->
  ~ (x * 2 ^ left = - 2 ^ 31 /\ mult = - 2 ^ 31) ->
  2 * Z.abs ((scaled mult left right off x - off) * 2 ^ (31 + right) - x * 2 ^ left * mult) <=
    (if right =? 0 then 0 else 2 ^ (31 + right)) + 2 ^ 31.
Proof.
  intros Hm Hl Hr Hf Hns. unfold scaled. rewrite clamp_id by exact Hf.
  destruct (srdhm_spec 32 (x * 2 ^ left) mult w32 Hf Hm Hns) as [N _]. unfold nearest in N. change (32 - 1) with 31 in N.
  set (a := x * 2 ^ left) in *. set (h := SaturatingRoundingDoublingHighMul 32 a mult) in *.
  assert (Hp : 0 < 2 ^ right) by (apply Z.pow_pos_nonneg; lia).
  destruct (rnd_away_nearest h (2 ^ right) Hp) as [N2 _]. unfold nearest in N2.
  rewrite Z.pow_add_r by lia. set (d := 2 ^ right) in *. set (q := rnd_away h d) in *.
  replace ((q + off - off) * (2 ^ 31 * d) - a * mult) with ((q * d - h) * 2 ^ 31 + (h * 2 ^ 31 - a * mult)) by ring.
  assert (T : Z.abs ((q * d - h) * 2 ^ 31 + (h * 2 ^ 31 - a * mult)) <= Z.abs (q * d - h) * 2 ^ 31 + Z.abs (h * 2 ^ 31 - a * mult)).
  { eapply Z.le_trans; [apply Z.abs_triangle|]. rewrite Z.abs_mul. change (Z.abs (2 ^ 31)) with (2 ^ 31). lia. }
  set (e1 := Z.abs (q * d - h)) in *. set (e2 := Z.abs (h * 2 ^ 31 - a * mult)) in *.
  destruct (right =? 0) eqn:E0.
  - assert (Ed : d = 1) by (unfold d; replace right with 0 by lia; reflexivity).
    assert (e1 = 0) by (unfold e1 in *; lia). lia.
  - lia.
Qed.
Lemma scaled_mono mult left right off x y : fits 32 mult -> 0 <= mult -> 0 <= left -> 0 <= right -> x <= y ->
  scaled mult left right off x <= scaled mult left right off y.
Proof.
  intros Hm H0 Hl Hr H. unfold scaled. apply Z.add_le_mono_r. apply rnd_away_mono; [apply Z.pow_pos_nonneg; lia|].
  apply srdhm_mono; try assumption; try (apply clamp_int_fits; lia). apply clamp_mono; [lia|].
  apply Z.mul_le_mono_nonneg_r; [|exact H]. apply Z.pow_nonneg. lia.
Qed.
Lemma by_fixedpoint_eq m mult shift off r c x : fits 32 x -> fits 32 mult -> 0 <= shift <= 31 -> fits 32 (scaled mult 0 shift 0 x + off) ->
  stage_at m (SByFixedPoint mult shift off) r c x = Some (scaled mult 0 shift 0 x + off).
Proof.
  intros Hx Hm Hs Hf. cbn [stage_at]. rewrite rdpot_eq by (exact w32 || (apply srdhm_fits; [exact w32|exact Hx|exact Hm]) || lia). cbn [bind].
  unfold scaled in *. cbn [Z.pow] in *. rewrite Z.mul_1_r, Z.add_0_r in *. rewrite clamp_id in * by exact Hx. apply fits_norm. exact Hf.
Qed.
Lemma by_fixedpoint_full m mult shift off : 0 <= shift <= 31 -> fits 32 mult ->
  exists f : Z -> Z,
    (forall x, fits 32 x -> ~ (x = - 2 ^ 31 /\ mult = - 2 ^ 31) ->
      2 * Z.abs (f x * 2 ^ (31 + shift) - x * mult) <= (if shift =? 0 then 0 else 2 ^ (31 + shift)) + 2 ^ 31) /\
    (0 <= mult -> forall x y, x <= y -> f x <= f y) /\
    (forall R C row col g, 0 < R -> 0 < C ->
      (forall r c, 0 <= r < R -> 0 <= c < C -> fits 32 (g r c) /\ fits 32 (f (g r c) + off)) ->
      stage_eval m (SByFixedPoint mult shift off) (tile R C g) row col = Some (tile R C (fun r c => f (g r c) + off))).
Proof.
  intros Hs Hm. exists (scaled mult 0 shift 0). split; [|split].
  - intros x Hx Hn. pose proof (scaled_error mult 0 shift 0 x Hm) as H. cbn [Z.pow] in H. rewrite Z.mul_1_r, Z.sub_0_r in H. apply H; try lia; assumption.
  - intros H0 x y H. apply scaled_mono; try assumption; lia.
  - intros R C row col g HR HC H. apply stage_tile; [exact HR|exact HC|]. intros r c Hr Hc. destruct (H r c Hr Hc). apply by_fixedpoint_eq; assumption.
Qed.

Lemma scale_eq' m mult e off x : fits 32 x -> fits 32 mult -> -31 <= e <= 30 ->
  fits 32 (scaled mult (Z.max 0 e) (Z.max 0 (- e)) 0 x + off) ->
  (let* n := norm m 32 (- e) in scale_at m mult (Z.max 0 e) (Z.max 0 n) off x) = Some (scaled mult (Z.max 0 e) (Z.max 0 (- e)) 0 x + off).
Proof.
  intros Hx Hm He Hf. rewrite fits_norm by (unfold fits; lia). cbn [bind].
  rewrite scale_eq; try assumption; try lia; [unfold scaled; rewrite Z.add_0_r; reflexivity|].
  unfold scaled in *. rewrite Z.add_0_r in Hf. exact Hf.
Qed.

Lemma scaled_scales mult e : fits 32 mult -> -31 <= e <= 30 ->
  scales_by_rounding (scaled mult (Z.max 0 e) (Z.max 0 (- e)) 0) mult e.
Proof.
  intros Hm He. split.
  - intros x Hx Hf Hn. pose proof (scaled_error mult (Z.max 0 e) (Z.max 0 (- e)) 0 x Hm ltac:(lia) ltac:(lia) Hf Hn) as H.
    rewrite Z.sub_0_r in H. destruct (0 <=? e) eqn:E.
    + replace (Z.max 0 (- e) =? 0) with true in H by lia. exact H.
    + replace (Z.max 0 (- e) =? 0) with false in H by lia. replace (31 - e) with (31 + Z.max 0 (- e)) by lia. exact H.
  - intros H0 x y H. apply scaled_mono; try assumption; lia.
Qed.
Lemma scale_exp_full m mult e off : -31 <= e <= 30 -> fits 32 mult ->
  exists f : Z -> Z, scales_by_rounding f mult e /\
    (forall R C row col g, 0 < R -> 0 < C ->
      (forall r c, 0 <= r < R -> 0 <= c < C -> fits 32 (g r c) /\ fits 32 (f (g r c) + off)) ->
      stage_eval m (SScaleExp mult e off) (tile R C g) row col = Some (tile R C (fun r c => f (g r c) + off))).
Proof.
  intros He Hm. exists (scaled mult (Z.max 0 e) (Z.max 0 (- e)) 0). split; [apply scaled_scales; assumption|].
  intros R C row col g HR HC H. apply stage_tile; [exact HR|exact HC|]. intros r c Hr Hc. destruct (H r c Hr Hc).
  cbn [stage_at]. apply scale_eq'; assumption.
Qed.
Lemma scale_exp_pc_full m :
  exists f : Z -> Z -> Z -> Z,
    (forall mult e, fits 32 mult -> -31 <= e <= 30 -> scales_by_rounding (f mult e) mult e) /\
    (forall mult e off R C row col g, fits 32 mult -> -31 <= e <= 30 -> 0 < R -> 0 < C ->
      (forall r c, 0 <= r < R -> 0 <= c < C -> fits 32 (g r c) /\ fits 32 (f mult e (g r c) + off)) ->
      stage_eval m (SScaleExp mult e off) (tile R C g) row col = Some (tile R C (fun r c => f mult e (g r c) + off))) /\
    (forall sh vmult vexp off R C row col g mult e, 0 < R -> 0 < C ->
      vec_covers sh vmult row col R C mult -> vec_covers sh vexp row col R C e ->
      (forall r c, 0 <= r < R -> 0 <= c < C -> fits 32 (mult r c) /\ -31 <= e r c <= 30 /\
         fits 32 (g r c) /\ fits 32 (f (mult r c) (e r c) (g r c) + off)) ->
      stage_eval m (SScaleExpPC sh vmult vexp off) (tile R C g) row col =
        Some (tile R C (fun r c => f (mult r c) (e r c) (g r c) + off))).
Proof.
  exists (fun mult e => scaled mult (Z.max 0 e) (Z.max 0 (- e)) 0). split; [|split].
  - intros. apply scaled_scales; assumption.
  - intros mult e off R C row col g Hm He HR HC H. apply stage_tile; [exact HR|exact HC|]. intros r c Hr Hc. destruct (H r c Hr Hc).
    cbn [stage_at]. apply scale_eq'; assumption.
  - intros sh vmult vexp off R C row col g mult e HR HC V1 V2 H. apply stage_tile; [exact HR|exact HC|]. intros r c Hr Hc.
    destruct (H r c Hr Hc) as (A1 & A2 & A3 & A4). cbn [stage_at].
    assert (E1 : entry_of (VMap sh vmult) (row + r) (col + c) = Some (mult r c)) by (specialize (V1 r c Hr Hc); destruct sh; exact V1).
    assert (E2 : entry_of (VMap sh vexp) (row + r) (col + c) = Some (e r c)) by (specialize (V2 r c Hr Hc); destruct sh; exact V2).
    rewrite E1, E2. cbn [bind]. apply scale_eq'; assumption.
Qed.
Lemma scale_exp_is_by_fixedpoint m mult shift off R C row col g : 0 < R -> 0 < C -> 0 <= shift <= 31 ->
  (forall r c, 0 <= r < R -> 0 <= c < C -> fits 32 (g r c)) ->
  stage_eval m (SScaleExp mult (- shift) off) (tile R C g) row col = stage_eval m (SByFixedPoint mult shift off) (tile R C g) row col.
Proof.
  intros HR HC Hs H. cbn [stage_eval]. rewrite Z.opp_involutive. rewrite fits_norm by (unfold fits; lia). cbn [bind].
  replace (Z.max 0 (- shift)) with 0 by lia. replace (Z.max 0 shift) with shift by lia.
  unfold block_map. cbn [b_reg b_rows b_cols tile].
  match goal with |- bind ?a _ = bind ?b _ => assert (E : a = b) end; [|rewrite E; reflexivity].
  apply mapM_ext. intros x Hx. apply in_map_iff in Hx. destruct Hx as (i & Ei & Hi). apply zrange_In in Hi.
  assert (fits 32 x).
  { rewrite <- Ei. apply H; [apply Z.mod_pos_bound; lia|]. split; [apply Z.div_pos; lia|apply Z.div_lt_upper_bound; lia]. }
  rewrite shl_eq by lia. cbn [bind Z.pow]. rewrite Z.mul_1_r.
  change (clampZ (int_min 32) (int_max 32) x) with (clamp_int 32 x). rewrite clamp_id by assumption. reflexivity.
Qed.
Lemma by_fixedpoint_doc_refuted : exists x,
  stage_eval Trap (SByFixedPoint (2 ^ 30) 1 10) (tile 1 1 (fun _ _ => x)) 0 0 =
    Some (tile 1 1 (fun _ _ => 9)) /\
  SaturatingRoundingDoublingHighMul 32 x (2 ^ 30) = -1 /\ documented_shift (-1) 1 + 10 = 10.
Proof. exists (-2). vm_compute. repeat split. Qed.

(* ------------------------------------------------------------------ *)
(* bias, clamp, casts *)
Lemma bias_full m v R C row col g b : 0 < R -> 0 < C ->
  match v with
  | VDup _ x _ => forall r c, 0 <= r < R -> 0 <= c < C -> b r c = x
  | VMap sh u => vec_covers sh u row col R C b
  end ->
  (forall r c, 0 <= r < R -> 0 <= c < C -> fits 32 (g r c + b r c)) ->
  stage_eval m (SBias v) (tile R C g) row col = Some (tile R C (fun r c => g r c + b r c)).
Proof.
  intros HR HC V H. apply stage_tile; [exact HR|exact HC|]. intros r c Hr Hc. cbn [stage_at].
  assert (E : entry_of v (row + r) (col + c) = Some (b r c)).
  { destruct v as [sh u|sh x n]; [|cbn; rewrite (V r c Hr Hc); reflexivity]. specialize (V r c Hr Hc). destruct sh; exact V. }
  rewrite E. cbn [bind]. apply fits_norm. apply H; assumption.
Qed.
Lemma clamp_full m lo hi R C row col g : 0 < R -> 0 < C ->
  exists q, stage_eval m (SClamp lo hi) (tile R C g) row col = Some (tile R C q) /\
    (lo <= hi -> forall r c, 0 <= r < R -> 0 <= c < C -> q r c = clampZ lo hi (g r c)).
Proof.
  intros HR HC. exists (fun r c => Z.min hi (Z.max lo (g r c))). split; [apply stage_tile; [exact HR|exact HC|reflexivity]|].
  intros H r c _ _. unfold clampZ. destruct (_ <? lo) eqn:?; [lia|]. destruct (hi <? _) eqn:?; lia.
Qed.
Lemma casts_full m R C row col g : 0 < R -> 0 < C ->
  stage_eval m SSatU8 (tile R C g) row col = Some (tile R C (fun r c => clampZ 0 255 (g r c))) /\
  stage_eval m SSatI8 (tile R C g) row col = Some (tile R C (fun r c => clamp_int 8 (g r c))) /\
  stage_eval m SSatI16 (tile R C g) row col = Some (tile R C (fun r c => clamp_int 16 (g r c))) /\
  ((forall r c, 0 <= r < R -> 0 <= c < C -> 0 <= g r c <= 255) ->
    stage_eval m STruncU8 (tile R C g) row col = Some (tile R C g)).
Proof.
  intros HR HC.
  assert (Q : forall lo hi x, lo <= hi -> Z.max lo (Z.min hi x) = clampZ lo hi x).
  { intros lo hi x H. unfold clampZ. destruct (x <? lo) eqn:?; [lia|]. destruct (hi <? x) eqn:?; lia. }
  repeat split.
  - apply stage_tile; [exact HR|exact HC|]. intros. cbn [stage_at]. f_equal. apply Q. lia.
  - apply stage_tile; [exact HR|exact HC|]. intros. cbn [stage_at]. f_equal. apply (Q (-128) 127). lia.
  - apply stage_tile; [exact HR|exact HC|]. intros. cbn [stage_at]. f_equal. apply (Q (-32768) 32767). lia.
  - intros H. apply stage_tile; [exact HR|exact HC|]. intros r c Hr Hc. cbn [stage_at]. f_equal. apply Z.mod_small. specialize (H r c Hr Hc). lia.
Qed.

(* ------------------------------------------------------------------ *)
(* pipelines *)
(* the scalar function of a pipeline at one position is what a 1x1 tile there computes *)
Lemma pipe_at_1x1 m p r c x y : pipe_at m p r c x = Some y ->
  pipeline_eval m p (tile 1 1 (fun _ _ => x)) r c = Some (tile 1 1 (fun _ _ => y)).
Proof.
  intros H. apply pipeline_tile; try lia. intros r' c' Hr Hc. replace (r + r') with r by lia. replace (c + c') with c by lia. exact H.
Qed.
Lemma tile_entry R C g r c : 0 <= r < R -> 0 <= c < C -> nth_error (b_reg (tile R C g)) (Z.to_nat (c * R + r)) = Some (g r c).
Proof.
  intros Hr Hc. cbn [tile b_reg]. assert (0 <= c * R + r < R * C) by nia.
  rewrite nth_error_map, zrange_nth by lia. cbn [option_map]. f_equal. f_equal.
  - rewrite Z.add_comm, Z.mod_add by lia. apply Z.mod_small. lia.
  - rewrite Z.div_add_l by lia. rewrite Z.div_small by lia. lia.
Qed.

Lemma pos_mono a b d : 0 < d -> a <= b -> clampZ 0 255 (rnd_away a d) <= clampZ 0 255 (rnd_away b d).
Proof.
  intros Hd H. pose proof (rnd_away_mono a b d Hd H). unfold clampZ.
  repeat match goal with |- context [if ?b then _ else _] => destruct b eqn:? end; lia.
Qed.
Lemma standard_full m off mult shift : 0 <= shift <= 31 ->
  exists f : Z -> Z,
    (forall x, 0 <= f x <= 255) /\
    (forall x, fits 32 (x + off) -> fits 32 ((x + off) * mult) ->
       exists q, nearest_away q ((x + off) * mult) (2 ^ shift) /\ f x = clampZ 0 255 q) /\
    (0 <= mult -> forall x y, fits 32 ((x + off) * mult) -> fits 32 ((y + off) * mult) -> x <= y -> f x <= f y) /\
    (forall R C row col g, 0 < R -> 0 < C ->
      (forall r c, 0 <= r < R -> 0 <= c < C -> m = Wrap \/ fits 32 (g r c + off) /\ fits 32 ((g r c + off) * mult)) ->
      pipeline_eval m (MakeStandardOutputPipeline off mult shift) (tile R C g) row col = Some (tile R C (fun r c => f (g r c)))).
Proof.
  intros Hs. exists (fun x => clampZ 0 255 (rnd_away (wrapS 32 ((x + off) * mult)) (2 ^ shift))).
  assert (Hd : 0 < 2 ^ shift) by (apply Z.pow_pos_nonneg; lia). split; [|split; [|split]].
  - intros x. unfold clampZ. destruct (_ <? 0) eqn:?; [lia|]. destruct (255 <? _) eqn:?; lia.
  - intros x H1 H2. exists (rnd_away ((x + off) * mult) (2 ^ shift)). split; [apply rnd_away_nearest; exact Hd|].
    rewrite wrapS_small by (try lia; apply fits_int; exact H2). reflexivity.
  - intros H0 x y Hx Hy H. rewrite !wrapS_small by (try lia; apply fits_int; assumption). apply pos_mono; [exact Hd|].
    apply Z.mul_le_mono_nonneg_r; lia.
  - intros R C row col g HR HC H. apply pipeline_tile; [exact HR|exact HC|]. intros r c Hr Hc. apply standard_at; [exact Hs|]. apply H; assumption.
Qed.
Lemma standard_wrap_refuted : exists mult x y X Y, 0 <= mult /\ fits 32 x /\ fits 32 y /\ x <= y /\ Y < X /\
  pipeline_eval Wrap (MakeStandardOutputPipeline 0 mult 0) (tile 1 1 (fun _ _ => x)) 0 0 = Some (tile 1 1 (fun _ _ => X)) /\
  pipeline_eval Wrap (MakeStandardOutputPipeline 0 mult 0) (tile 1 1 (fun _ _ => y)) 0 0 = Some (tile 1 1 (fun _ _ => Y)).
Proof.
  exists 2, (2 ^ 30 - 1), (2 ^ 30), 255, 0. unfold fits. repeat split; try lia; vm_compute; reflexivity.
Qed.

(* the converse: a 1x1 tile computes exactly the scalar function *)
Lemma tile_1x1 x : tile 1 1 (fun _ _ => x) = mk_block 1 1 [x].
Proof. reflexivity. Qed.
Lemma init_1x1 f : block_init 1 1 f = (let* y := f 0 0 in Some (mk_block 1 1 [y])).
Proof. unfold block_init. change (zrange (1 * 1)) with [0]. cbn [mapM]. change (0 mod 1) with 0. change (0 / 1) with 0. destruct (f 0 0); reflexivity. Qed.
Lemma map_1x1 f x : block_map f (tile 1 1 (fun _ _ => x)) = (let* y := f x in Some (tile 1 1 (fun _ _ => y))).
Proof. rewrite tile_1x1. unfold block_map. cbn. destruct (f x); reflexivity. Qed.
Lemma broadcast_1x1 op x y : Broadcast op (tile 1 1 (fun _ _ => x)) (tile 1 1 (fun _ _ => y)) =
  (let* z := op x y in Some (tile 1 1 (fun _ _ => z))).
Proof.
  rewrite !tile_1x1. unfold Broadcast, ShouldFlip. cbn [b_rows b_cols]. change ((1 * 1 <? 1 * 1) || ((1 * 1 =? 1 * 1) && (1 <? 1))) with false. cbv iota.
  unfold BroadcastImpl. cbn [b_rows b_cols]. change (Z.max 1 1) with 1. change (1 =? 1) with true. cbn [orb guard bind]. apply init_1x1.
Qed.
Lemma load_1x1 v r c : LoadForBroadcasting 1 1 v (pos_of (vec_shape v) r c) =
  (let* y := entry_of v r c in Some (tile 1 1 (fun _ _ => y))).
Proof.
  destruct v as [[] u|sh x n]; unfold LoadForBroadcasting; rewrite init_1x1; cbn; unfold rd; rewrite ?Z.add_0_r; reflexivity.
Qed.
Lemma bind_assoc {A B C} (a : option A) (f : A -> option B) (g : B -> option C) :
  bind (bind a f) g = bind a (fun x => bind (f x) g).
Proof. destruct a; reflexivity. Qed.
Lemma bind_ext {A B} (a : option A) (f g : A -> option B) : (forall x, f x = g x) -> bind a f = bind a g.
Proof. intros H. destruct a; cbn; [apply H|reflexivity]. Qed.
Lemma stage_1x1 m s r c x : stage_eval m s (tile 1 1 (fun _ _ => x)) r c =
  (let* y := stage_at m s r c x in Some (tile 1 1 (fun _ _ => y))).
Proof.
  destruct s; cbn [stage_eval stage_at]; change (b_rows (tile 1 1 (fun _ _ => x))) with 1; change (b_cols (tile 1 1 (fun _ _ => x))) with 1; cbv zeta.
  - rewrite map_1x1. unfold quantize_at. rewrite !bind_assoc. reflexivity.
  - rewrite (load_1x1 (VMap sh result_mult_int)), (load_1x1 (VMap sh result_offset)).
    destruct (entry_of (VMap sh result_mult_int) r c) as [k|]; destruct (entry_of (VMap sh result_offset) r c) as [o|]; cbn [bind]; try reflexivity.
    unfold BroadcastAdd, BroadcastMul, quantize_at. rewrite broadcast_1x1, !bind_assoc. unfold Add. apply bind_ext. intros a. cbn [bind].
    rewrite broadcast_1x1, !bind_assoc. unfold Mul. apply bind_ext. intros p. cbn [bind]. rewrite map_1x1. reflexivity.
  - rewrite map_1x1. reflexivity.
  - rewrite bind_assoc. apply bind_ext. intros n. rewrite map_1x1. unfold scale_at. rewrite !bind_assoc. reflexivity.
  - rewrite (load_1x1 (VMap sh multiplier)), (load_1x1 (VMap sh exponent)).
    destruct (entry_of (VMap sh multiplier) r c) as [k|]; destruct (entry_of (VMap sh exponent) r c) as [e|]; cbn [bind]; try reflexivity.
    rewrite !map_1x1. cbn [bind]. rewrite !bind_assoc. apply bind_ext. intros n. cbn [bind].
    unfold BroadcastShiftLeft, BroadcastSRDHM, BroadcastRDPOT, scale_at. rewrite broadcast_1x1, !bind_assoc, (Z.max_comm e 0), (Z.max_comm n 0).
    apply bind_ext. intros a. cbn [bind]. rewrite broadcast_1x1. cbn [bind]. rewrite broadcast_1x1, !bind_assoc.
    apply bind_ext. intros q. cbn [bind]. rewrite map_1x1. reflexivity.
  - rewrite map_1x1. unfold sat3. cbn [bind]. rewrite !tile_1x1. do 3 f_equal. repeat match goal with |- context [if ?b then _ else _] => destruct b eqn:? end; lia.
  - rewrite map_1x1. unfold sat3. cbn [bind]. rewrite !tile_1x1. do 3 f_equal. repeat match goal with |- context [if ?b then _ else _] => destruct b eqn:? end; lia.
  - rewrite map_1x1. unfold sat3. cbn [bind]. rewrite !tile_1x1. do 3 f_equal. repeat match goal with |- context [if ?b then _ else _] => destruct b eqn:? end; lia.
  - rewrite map_1x1. reflexivity.
  - rewrite load_1x1. rewrite !bind_assoc. apply bind_ext. intros b. cbn [bind]. unfold BroadcastAdd. rewrite broadcast_1x1. reflexivity.
  - rewrite map_1x1. cbn [bind]. rewrite !tile_1x1. do 3 f_equal. lia.
  - apply map_1x1.
Qed.
Lemma pipeline_1x1 m p r c : forall x, pipeline_eval m p (tile 1 1 (fun _ _ => x)) r c =
  (let* y := pipe_at m p r c x in Some (tile 1 1 (fun _ _ => y))).
Proof.
  induction p as [|s t IH]; intros x; [reflexivity|]. cbn [pipeline_eval pipe_at]. rewrite stage_1x1, !bind_assoc. apply bind_ext. intros y. apply IH.
Qed.
(* an entry does not depend on the tile it is computed in *)
Lemma pipeline_tile_free m p R C row col g h : 0 < R -> 0 < C ->
  (forall r c, 0 <= r < R -> 0 <= c < C ->
     pipeline_eval m p (tile 1 1 (fun _ _ => g r c)) (row + r) (col + c) = Some (tile 1 1 (fun _ _ => h r c))) ->
  pipeline_eval m p (tile R C g) row col = Some (tile R C h).
Proof.
  intros HR HC H. apply pipeline_tile; [exact HR|exact HC|]. intros r c Hr Hc. specialize (H r c Hr Hc). rewrite pipeline_1x1 in H.
  destruct (pipe_at m p (row + r) (col + c) (g r c)) as [y|]; cbn in H; [|discriminate]. injection H as E. subst. reflexivity.
Qed.
