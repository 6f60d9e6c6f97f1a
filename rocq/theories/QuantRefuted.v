(* QuantRefuted.v: what is not true of the quantization example. *)
From Coq Require Import SpecFloat QArith Qabs Qpower Qminmax Lqa.
From Verif Require Import Base BaseLemmas FixedPointModel FixedPointSpec OutputModel OutputSpec OutputProofs2
  EightBitModel QuantModel FloatSpec FloatProofs FloatProofs2 FloatProofs3 QuantSpec QuantProofs QuantProofs2 QuantProofs3 QuantProofs4 QuantProofs5 QuantProofs6.
#[local] Open Scope Q_scope.

Theorem output_stage_real m f off fuel : is_float f -> pow2 (-32) <= valQ f -> valQ f < 1 -> (148 <= Z.of_nat fuel)%Z ->
  exists mult shift (g : Z -> Z),
    QuantizeMultiplierSmallerThanOne true fuel f = Some (mult, shift) /\
    (forall x, fits 32 x -> Qabs (inject_Z (g x) - inject_Z x * valQ f) <= 3 # 4) /\
    (forall x y, (x <= y)%Z -> (g x <= g y)%Z) /\
    (forall R C row col h, (0 < R)%Z -> (0 < C)%Z ->
      (forall r c, (0 <= r < R)%Z -> (0 <= c < C)%Z -> fits 32 (h r c) /\ fits 32 (g (h r c) + off)) ->
      stage_eval m (SByFixedPoint mult shift off) (tile R C h) row col = Some (tile R C (fun r c => (g (h r c) + off)%Z))).
Proof.
  intros Hf L U Hfuel. assert (P : 0 < pow2 (-32)) by reflexivity.
  destruct (quantize_multiplier true fuel f Hf ltac:(lra) Hfuel) as (mult & shift & E & Hm & Hs & Ev).
  assert (Hs2 : (shift <= 31)%Z).
  { apply Z.nlt_ge. intros F. revert L. apply Qlt_not_le. rewrite Ev.
    destruct Hm as [_ K]. apply inj_lt in K. change (inject_Z (2 ^ 31)) with (pow2 31) in K.
    pose proof (pow2_le (- 31 - shift) (- 63) ltac:(lia)). pose proof (pow2_pos (- 31 - shift)).
    assert (pow2 31 * pow2 (-63) == pow2 (-32)) by reflexivity. pose proof (pow2_pos 31). nra. }
  assert (Fm : fits 32 mult) by (unfold fits; lia).
  exists mult, shift, (scaled mult 0 shift 0). split; [exact E|]. split; [|split].
  - intros x Hx. rewrite Ev. apply by_fixedpoint_real; [exact Hm | lia | exact Hx].
  - intros x y H. apply scaled_mono; try assumption; lia.
  - intros R C row col h HR HC H. apply stage_tile; [exact HR|exact HC|]. intros r c Hr Hc. destruct (H r c Hr Hc).
    apply by_fixedpoint_eq; try assumption; lia.
Qed.

(* a small multiplier gives a shift the output stage cannot perform *)
Theorem small_multiplier_refuted : exists f mult shift, is_float f /\ 0 < valQ f < 1 /\
  QuantizeMultiplierSmallerThanOne true 148 f = Some (mult, shift) /\
  forall m off, stage_eval m (SByFixedPoint mult shift off) (tile 1 1 (fun _ _ => 0%Z)) 0 0 = None.
Proof.
  exists (S754_finite false 8388608 (-63)), (2 ^ 30)%Z, 39%Z.
  split; [split; reflexivity|]. split; [split; reflexivity|]. split; [reflexivity|]. intros m off. reflexivity.
Qed.

(* lhs rows (1, -1 + 1/1024, 0, 0), rhs all ones: the products are small and the
   real multiplier exceeds 1 *)
Definition big_lhs : list float := map (fun z => fdiv (float_of_Z z) (float_of_Z 1024)) [1024; 1024; -1023; -1023; 0; 0; 0; 0]%Z.
Definition big_rhs : list float := repeat (float_of_Z 1) 12.
Definition in_unit (v : float) : Prop := is_float v /\ Qabs (valQ v) <= 1.
Ltac all_in H := repeat match type of H with _ \/ _ => destruct H as [<- | H] end; try contradiction; (split; [split; reflexivity | discriminate]).
Lemma big_unit : (forall v, In v big_lhs -> in_unit v) /\ (forall v, In v big_rhs -> in_unit v).
Proof. split; intros v H; cbn -[fdiv float_of_Z] in H; all_in H. Qed.
Theorem multiplier_above_one_refuted : exists lhs rhs o,
  length lhs = 8%nat /\ length rhs = 12%nat /\
  (forall v, In v lhs -> in_unit v) /\ (forall v, In v rhs -> in_unit v) /\
  offline true 148 2 4 3 lhs rhs = None /\
  offline false 148 2 4 3 lhs rhs = Some o /\
  8 <= valQ (real_multiplier (o_lhs o) (o_rhs o) (o_result o)) /\
  inject_Z (o_multiplier o) * pow2 (- 31 - o_right_shift o) <= 1 # 32.
Proof.
  exists big_lhs, big_rhs.
  destruct (offline false 148 2 4 3 big_lhs big_rhs) as [o|] eqn:E; [| exfalso; vm_compute in E; discriminate].
  exists o. split; [reflexivity|]. split; [reflexivity|]. split; [apply big_unit|]. split; [apply big_unit|].
  split; [vm_compute; reflexivity|]. split; [reflexivity|].
  vm_compute in E. injection E as <-. split; vm_compute; discriminate.
Qed.
(* rows (1, -1, 0, 0) with the same rhs: the product is zero and choosing its
   parameters converts NaN to an integer *)
Definition zero_lhs : list float := map float_of_Z [1; 1; -1; -1; 0; 0; 0; 0]%Z.
Lemma zero_unit : forall v, In v zero_lhs -> in_unit v.
Proof. intros v H; cbn -[fdiv float_of_Z] in H; all_in H. Qed.
Theorem zero_product_refuted : exists lhs rhs,
  length lhs = 8%nat /\ length rhs = 12%nat /\
  (forall v, In v lhs -> in_unit v) /\ (forall v, In v rhs -> in_unit v) /\
  forall asserts, offline asserts 148 2 4 3 lhs rhs = None.
Proof.
  exists zero_lhs, big_rhs. split; [reflexivity|]. split; [reflexivity|]. split; [apply zero_unit|]. split; [apply big_unit|].
  intros []; vm_compute; reflexivity.
Qed.
(* a range of about 6e38 overflows: the scale is infinite *)
Theorem infinite_scale_refuted : exists min max q, is_float min /\ is_float max /\ valQ min < 0 /\ 0 < valQ max /\
  ChooseQuantizationParams min max = Some q /\ q_scale q = S754_infinity false /\
  dequantize_one q (q_zero_point q) = S754_nan.
Proof.
  exists (S754_finite true 15000000 104), (S754_finite false 15000000 104), (mk_qparams (S754_infinity false) 0).
  split; [split; reflexivity|]. split; [split; reflexivity|]. split; [reflexivity|]. split; [reflexivity|].
  split; [vm_compute; reflexivity|]. split; [reflexivity|]. reflexivity.
Qed.
(* the error can exceed half a scale *)
Theorem half_scale_refuted : exists min max x q n, is_float min /\ is_float max /\ is_float x /\
  valQ min <= valQ x /\ valQ x <= valQ max /\ ChooseQuantizationParams min max = Some q /\ quantize_one q x = Some n /\
  (1 # 2) * valQ (q_scale q) < Qabs (valQ (dequantize_one q n) - valQ x).
Proof.
  exists (S754_finite true 0x99C6C7 (-35)), (S754_finite false 0x88604A (-24)), (S754_finite false 0x882F04 (-24)).
  eexists. exists 255%Z.
  split; [split; reflexivity|]. split; [split; reflexivity|]. split; [split; reflexivity|].
  split; [vm_compute; discriminate|]. split; [vm_compute; discriminate|].
  split; [vm_compute; reflexivity|]. split; [vm_compute; reflexivity|]. vm_compute; reflexivity.
Qed.
Theorem tiny_range_refuted : exists min max, is_float min /\ is_float max /\ valQ min <= valQ max /\ 0 < valQ max /\
  ChooseQuantizationParams min max = None.
Proof.
  exists (float_of_Z 0), (S754_finite false 127 (-149)). split; [split; reflexivity|]. split; [split; reflexivity|].
  split; [discriminate|]. split; [reflexivity|]. vm_compute; reflexivity.
Qed.
