(* Props_Output.v: property theorems C30-C34, about the output stages
   (OutputModel.v).  [tile R C g] is a register block with entry g r c;
   [stage_eval m s b row col] is the evaluator of stage s on a block whose top
   left entry is at (row, col) of the result.  m = Wrap or Trap is what a signed
   overflow does. *)
From Verif Require Import Base FixedPointModel FixedPointSpec CommonModel PackModel OutputModel OutputSpec GemmModel OutputProofs2.

(* C30: the quantize-down stages *)
Theorem C30_quantize_down :
  forall m off mult shift R C row col g, 0 < R -> 0 < C -> 0 <= shift <= 31 ->
  (forall r c, 0 <= r < R -> 0 <= c < C -> fits 32 (g r c + off) /\ fits 32 ((g r c + off) * mult)) ->
  exists q, stage_eval m (SQuantizeDown off mult shift) (tile R C g) row col = Some (tile R C q) /\
    forall r c, 0 <= r < R -> 0 <= c < C -> nearest_away (q r c) ((g r c + off) * mult) (2 ^ shift).
Proof. exact quantize_down_full. Qed.
Print Assumptions C30_quantize_down.
Example C30_quantize_down_ex :
  stage_eval Trap (SQuantizeDown 7 (-3) 2) (tile 2 2 (fun r c => 10 * r + c)) 5 8 = Some (tile 2 2 (fun r c => nth (Z.to_nat (r + 2 * c)) [-5; -13; -6; -14] 0)).
Proof. reflexivity. Qed.

(* per-channel version: offset and multiplier of the entry's row or column *)
Theorem C30_quantize_down_PC :
  forall m sh voff vmult shift R C row col g off mult, 0 < R -> 0 < C -> 0 <= shift <= 31 ->
  vec_covers sh voff row col R C off -> vec_covers sh vmult row col R C mult ->
  (forall r c, 0 <= r < R -> 0 <= c < C -> fits 32 (g r c + off r c) /\ fits 32 ((g r c + off r c) * mult r c)) ->
  exists q, stage_eval m (SQuantizeDownPC sh voff vmult shift) (tile R C g) row col = Some (tile R C q) /\
    forall r c, 0 <= r < R -> 0 <= c < C -> nearest_away (q r c) ((g r c + off r c) * mult r c) (2 ^ shift).
Proof. exact quantize_down_pc_full. Qed.
Print Assumptions C30_quantize_down_PC.
Example C30_quantize_down_PC_ex :
  stage_eval Trap (SQuantizeDownPC VRow (mk_vmap (fun a => Some a) 100 20) (mk_vmap (fun a => Some (a * a)) 0 20) 3) (tile 2 2 (fun r c => 10 * r + c)) 5 8
    = Some (tile 2 2 (fun r c => ((10 * r + c + (108 + c)) * (8 + c) ^ 2 + 4) / 8)).
Proof. reflexivity. Qed.

(* the formula of the header comment differs exactly on negative ties *)
Theorem C30_documented_formula :
  forall q n shift, 0 <= shift -> nearest_away q n (2 ^ shift) ->
  (q = documented_shift n shift <-> ~ (n < 0 /\ is_tie n (2 ^ shift))).
Proof. exact away_vs_documented. Qed.
Print Assumptions C30_documented_formula.
Example C30_documented_formula_ex : nearest_away (-2) (-3) (2 ^ 1) /\ is_tie (-3) (2 ^ 1) /\ documented_shift (-3) 1 = -1.
Proof. unfold nearest_away, nearest, is_tie. split; [split; [lia|intros _; lia]|]. split; [exists (-2); lia|reflexivity]. Qed.
Theorem C30_documented_ties_refuted :
  exists x, fits 32 x /\
  stage_eval Trap (SQuantizeDown 0 1 1) (tile 1 1 (fun _ _ => x)) 0 0 <> Some (tile 1 1 (fun _ _ => documented_shift x 1)).
Proof. exact documented_tie_refuted. Qed.
Print Assumptions C30_documented_ties_refuted.

(* C31: x * mult / 2^31 / 2^shift with the two roundings; f is one function for
   all tiles and positions *)
Theorem C31_by_fixedpoint :
  forall m mult shift off, 0 <= shift <= 31 -> fits 32 mult ->
  exists f : Z -> Z,
    (forall x, fits 32 x -> ~ (x = - 2 ^ 31 /\ mult = - 2 ^ 31) ->
      2 * Z.abs (f x * 2 ^ (31 + shift) - x * mult) <= (if shift =? 0 then 0 else 2 ^ (31 + shift)) + 2 ^ 31) /\
    (0 <= mult -> forall x y, x <= y -> f x <= f y) /\
    (forall R C row col g, 0 < R -> 0 < C ->
      (forall r c, 0 <= r < R -> 0 <= c < C -> fits 32 (g r c) /\ fits 32 (f (g r c) + off)) ->
      stage_eval m (SByFixedPoint mult shift off) (tile R C g) row col = Some (tile R C (fun r c => f (g r c) + off))).
Proof. exact by_fixedpoint_full. Qed.
Print Assumptions C31_by_fixedpoint.
Example C31_by_fixedpoint_ex :
  stage_eval Trap (SByFixedPoint (3 * 2 ^ 29) 3 128) (tile 2 1 (fun r _ => 1000 - 3001 * r)) 0 0 = Some (tile 2 1 (fun r _ => 222 - 282 * r)).
Proof. reflexivity. Qed.

(* the exponent variants: one function of multiplier, exponent and value serves
   the scalar and the per-channel stage *)
Theorem C31_scale_by_exponent :
  forall m,
  exists f : Z -> Z -> Z -> Z,
    (forall mult e, fits 32 mult -> -31 <= e <= 30 -> scales_by_rounding (f mult e) mult e) /\
    (forall mult e off R C row col g, fits 32 mult -> -31 <= e <= 30 -> 0 < R -> 0 < C ->
      (forall r c, 0 <= r < R -> 0 <= c < C -> fits 32 (g r c) /\ fits 32 (f mult e (g r c) + off)) ->
      stage_eval m (SScaleExp mult e off) (tile R C g) row col = Some (tile R C (fun r c => f mult e (g r c) + off))) /\
    (forall sh vmult vexp off R C row col g mult e, 0 < R -> 0 < C ->
      vec_covers sh vmult row col R C mult -> vec_covers sh vexp row col R C e ->
      (forall r c, 0 <= r < R -> 0 <= c < C -> fits 32 (mult r c) /\ -31 <= e r c <= 30 /\
         fits 32 (g r c) /\ fits 32 (f (mult r c) (e r c) (g r c) + off)) ->
      stage_eval m (SScaleExpPC sh vmult vexp off) (tile R C g) row col =
        Some (tile R C (fun r c => f (mult r c) (e r c) (g r c) + off))).
Proof. exact scale_exp_pc_full. Qed.
Print Assumptions C31_scale_by_exponent.
Example C31_scale_by_exponent_ex :
  stage_eval Trap (SScaleExpPC VCol (mk_vmap (fun a => Some (2 ^ 30 + a * 2 ^ 28)) 0 9) (mk_vmap (fun a => Some (a - 1)) 0 9) (-5))
      (tile 3 2 (fun r c => 100 + 7 * r - 300 * c)) 0 4
    = Some (tile 3 2 (fun r c => nth (Z.to_nat (r + 3 * c)) [20; 62; 166; -55; -126; -284] 0)).
Proof. reflexivity. Qed.

Theorem C31_nonpositive_exponent :
  forall m mult shift off R C row col g, 0 < R -> 0 < C -> 0 <= shift <= 31 ->
  (forall r c, 0 <= r < R -> 0 <= c < C -> fits 32 (g r c)) ->
  stage_eval m (SScaleExp mult (- shift) off) (tile R C g) row col = stage_eval m (SByFixedPoint mult shift off) (tile R C g) row col.
Proof. exact scale_exp_is_by_fixedpoint. Qed.
Print Assumptions C31_nonpositive_exponent.
Example C31_nonpositive_exponent_ex :
  stage_eval Trap (SScaleExp (3 * 2 ^ 29) (-3) 128) (tile 2 1 (fun r _ => 1000 - 3001 * r)) 0 0 = Some (tile 2 1 (fun r _ => 222 - 282 * r)).
Proof. reflexivity. Qed.
(* output_stages.h 62-71 documents "rounding right shift"; a negative tie after
   the high multiplication rounds away from zero, not by adding a half *)
Theorem C31_documented_ties_refuted :
  exists x,
  stage_eval Trap (SByFixedPoint (2 ^ 30) 1 10) (tile 1 1 (fun _ _ => x)) 0 0 = Some (tile 1 1 (fun _ _ => 9)) /\
  SaturatingRoundingDoublingHighMul 32 x (2 ^ 30) = -1 /\ documented_shift (-1) 1 + 10 = 10.
Proof. exact by_fixedpoint_doc_refuted. Qed.
Print Assumptions C31_documented_ties_refuted.

(* C32: bias, clamp and casts *)
Theorem C32_bias :
  forall m v R C row col g b, 0 < R -> 0 < C ->
  match v with
  | VDup _ x _ => forall r c, 0 <= r < R -> 0 <= c < C -> b r c = x
  | VMap sh u => vec_covers sh u row col R C b
  end ->
  (forall r c, 0 <= r < R -> 0 <= c < C -> fits 32 (g r c + b r c)) ->
  stage_eval m (SBias v) (tile R C g) row col = Some (tile R C (fun r c => g r c + b r c)).
Proof. exact bias_full. Qed.
Print Assumptions C32_bias.
Example C32_bias_ex :
  stage_eval Trap (SBias (VMap VCol (mk_vmap (fun a => Some (a * a)) 3 50))) (tile 4 2 (fun r c => r - c)) 7 1 =
    Some (tile 4 2 (fun r c => r - c + (10 + r) ^ 2)).
Proof. reflexivity. Qed.

Theorem C32_clamp :
  forall m lo hi R C row col g, 0 < R -> 0 < C ->
  exists q, stage_eval m (SClamp lo hi) (tile R C g) row col = Some (tile R C q) /\
    (lo <= hi -> forall r c, 0 <= r < R -> 0 <= c < C -> q r c = clampZ lo hi (g r c)).
Proof. exact clamp_full. Qed.
Print Assumptions C32_clamp.
Example C32_clamp_ex : stage_eval Trap (SClamp (-3) 6) (tile 1 4 (fun _ c => 5 * c - 7)) 0 0 = Some (tile 1 4 (fun _ c => nth (Z.to_nat c) [-3; -2; 3; 6] 0)).
Proof. reflexivity. Qed.

Theorem C32_casts :
  forall m R C row col g, 0 < R -> 0 < C ->
  stage_eval m SSatU8 (tile R C g) row col = Some (tile R C (fun r c => clampZ 0 255 (g r c))) /\
  stage_eval m SSatI8 (tile R C g) row col = Some (tile R C (fun r c => clamp_int 8 (g r c))) /\
  stage_eval m SSatI16 (tile R C g) row col = Some (tile R C (fun r c => clamp_int 16 (g r c))) /\
  ((forall r c, 0 <= r < R -> 0 <= c < C -> 0 <= g r c <= 255) ->
    stage_eval m STruncU8 (tile R C g) row col = Some (tile R C g)).
Proof. exact casts_full. Qed.
Print Assumptions C32_casts.
Example C32_casts_ex : stage_eval Trap SSatI8 (tile 1 3 (fun _ c => 200 * c - 200)) 0 0 = Some (tile 1 3 (fun _ c => nth (Z.to_nat c) [-128; 0; 127] 0)).
Proof. reflexivity. Qed.

(* C33: on every tile a pipeline computes, at each entry, what it computes on
   that entry alone *)
Theorem C33_entrywise :
  forall m p R C row col g h, 0 < R -> 0 < C ->
  (forall r c, 0 <= r < R -> 0 <= c < C ->
     pipeline_eval m p (tile 1 1 (fun _ _ => g r c)) (row + r) (col + c) = Some (tile 1 1 (fun _ _ => h r c))) ->
  pipeline_eval m p (tile R C g) row col = Some (tile R C h).
Proof. exact pipeline_tile_free. Qed.
Print Assumptions C33_entrywise.
Definition C33_pipe : list stage :=
  [SBias (VMap VRow (mk_vmap (fun a => Some (a * 1000)) 0 50)); SScaleExp (2 ^ 30) (-1) 3; SClamp 5 200; SSatU8].
Example C33_entrywise_ex :
  pipeline_eval Trap C33_pipe (tile 2 2 (fun r c => 100 * r - 4000 - 1200 * c)) 2 4 = Some (tile 2 2 (fun r c => nth (Z.to_nat (r + 2 * c)) [5; 28; 5; 5] 0)) /\
  pipeline_eval Trap C33_pipe (tile 1 1 (fun _ _ => 9 * 3 - 3500)) 5 3 = Some (tile 1 1 (fun _ _ => 5)).
Proof. split; reflexivity. Qed.

(* and that is the composition of the scalar stage functions *)
Theorem C33_composition :
  forall m p r c x, pipeline_eval m p (tile 1 1 (fun _ _ => x)) r c =
  (let* y := pipe_at m p r c x in Some (tile 1 1 (fun _ _ => y))).
Proof. intros m p r c. exact (pipeline_1x1 m p r c). Qed.
Print Assumptions C33_composition.

(* the executor stores each entry's value at that entry's place *)
Theorem C33_execute :
  forall m p R C g h row col dst drow dcol, 0 < R -> 0 < C ->
  (forall r c, 0 <= r < R -> 0 <= c < C -> pipe_at m p (row + r) (col + c) (g r c) = Some (h r c)) ->
  Execute m p (tile R C g) dst row col drow dcol =
    Some (map (fun i => (mm_addr dst (drow + i / C) (dcol + i mod C), h (i / C) (i mod C))) (zrange (R * C))).
Proof. exact Execute_tile. Qed.
Print Assumptions C33_execute.
Example C33_execute_ex :
  Execute Trap [SBias (VDup VCol 5 1); SSatU8] (tile 2 2 (fun r c => 100 * r + 200 * c)) (mk_map 50 9 9 10 RowMajor) 3 3 4 5 =
    Some [(95, 5); (96, 205); (105, 105); (106, 255)].
Proof. reflexivity. Qed.

(* C34: the standard uint8 pipeline; f does not depend on tile or position *)
Theorem C34_standard_pipeline :
  forall m off mult shift, 0 <= shift <= 31 ->
  exists f : Z -> Z,
    (forall x, 0 <= f x <= 255) /\
    (forall x, fits 32 (x + off) -> fits 32 ((x + off) * mult) ->
       exists q, nearest_away q ((x + off) * mult) (2 ^ shift) /\ f x = clampZ 0 255 q) /\
    (0 <= mult -> forall x y, fits 32 ((x + off) * mult) -> fits 32 ((y + off) * mult) -> x <= y -> f x <= f y) /\
    (forall R C row col g, 0 < R -> 0 < C ->
      (forall r c, 0 <= r < R -> 0 <= c < C -> m = Wrap \/ fits 32 (g r c + off) /\ fits 32 ((g r c + off) * mult)) ->
      pipeline_eval m (MakeStandardOutputPipeline off mult shift) (tile R C g) row col = Some (tile R C (fun r c => f (g r c)))).
Proof. exact standard_full. Qed.
Print Assumptions C34_standard_pipeline.
Example C34_standard_pipeline_ex :
  pipeline_eval Trap (MakeStandardOutputPipeline 100 3 4) (tile 1 4 (fun _ c => 700 * c - 500)) 0 0 =
    Some (tile 1 4 (fun _ c => nth (Z.to_nat c) [0; 56; 188; 255] 0)).
Proof. reflexivity. Qed.
(* without the no-overflow hypothesis monotonicity fails (two's complement) *)
Theorem C34_wrapping_not_monotone_refuted :
  exists mult x y X Y, 0 <= mult /\ fits 32 x /\ fits 32 y /\ x <= y /\ Y < X /\
  pipeline_eval Wrap (MakeStandardOutputPipeline 0 mult 0) (tile 1 1 (fun _ _ => x)) 0 0 = Some (tile 1 1 (fun _ _ => X)) /\
  pipeline_eval Wrap (MakeStandardOutputPipeline 0 mult 0) (tile 1 1 (fun _ _ => y)) 0 0 = Some (tile 1 1 (fun _ _ => Y)).
Proof. exact standard_wrap_refuted. Qed.
Print Assumptions C34_wrapping_not_monotone_refuted.
