(* TransformProofs32.v: the transforms on 32-bit ARM. *)
From Coq Require Import SpecFloat QArith Qabs Permutation Lqa.
From Verif Require Import Base BaseLemmas OutputModel OutputProofs EightBitModel QuantModel MetaModel TransformModel TransformKernels32 TransformBlocks TransformBlocks32
  TransformProofs FloatSpec FloatProofs2 FloatProofs3 TransformSpec TransformKernels TransformProofs2.
#[local] Open Scope Z_scope.

Lemma tiny_pos n e : 0 < n -> tiny (inject_Z n * pow2 e) = (Z.log2 n + e <? - 126).
Proof.
  intros Hn. unfold tiny. assert (P : (0 <= inject_Z n * pow2 e)%Q).
  { apply Qmult_le_0_compat; [apply (proj1 (inj_le 0 n)); lia|apply Qlt_le_weak, pow2_pos]. }
  assert (L : (pow2 (- 126) <= Qabs (inject_Z n * pow2 e))%Q <-> - 126 - e <= Z.log2 n).
  { rewrite (Qabs_pos _ P). replace (- 126) with ((- 126 - e) + e) at 1 by lia. rewrite pow2_add, (Qmult_le_r _ _ _ (pow2_pos e)).
    set (b := - 126 - e). rewrite <- (Z.log2_le_pow2 n b Hn). destruct (Z.le_gt_cases 0 b) as [H|H].
    - rewrite pow2_Z by exact H. apply iff_sym, inj_le.
    - rewrite (Z.pow_neg_r 2 b H). split; intros _; [lia|]. apply (Qle_trans _ (pow2 0)); [apply pow2_le; lia|]. apply (proj1 (inj_le 1 n)). lia. }
  destruct (Qle_bool (pow2 (- 126)) (Qabs (inject_Z n * pow2 e))) eqn:E; cbn [negb].
  - apply Qle_bool_iff, L in E. lia.
  - destruct (Z.ltb_spec (Z.log2 n + e) (- 126)) as [H|H]; [reflexivity|]. assert (X : - 126 - e <= Z.log2 n) by lia. apply L, Qle_bool_iff in X. congruence.
Qed.
Lemma tiny_wd q q' : (q == q' \/ q == - q')%Q -> tiny q = tiny q'.
Proof.
  intros H. unfold tiny. f_equal. assert (E : (Qabs q == Qabs q')%Q) by (destruct H as [H|H]; rewrite H; [reflexivity|apply Qabs_opp]).
  apply Bool.eq_iff_eq_true. rewrite !Qle_bool_iff, E. reflexivity.
Qed.
Lemma flush_ok x : flush x = to_zero x.
Proof.
  destruct x as [s|s| |s m e]; try reflexivity. unfold flush, to_zero. rewrite <- (tiny_pos (Zpos m) e) by lia.
  rewrite (tiny_wd (valQ (S754_finite s m e)) (inject_Z (Zpos m) * pow2 e)); [reflexivity|].
  rewrite valQ_finite. destruct s; unfold sgn; [right|left]; ring.
Qed.
Lemma fadd32_ok x y : fadd32 x y = add32 x y.
Proof. unfold fadd32, add32. now rewrite !flush_ok. Qed.
Lemma fsub32_ok x y : fsub32 x y = sub32 x y.
Proof. unfold fsub32, sub32. now rewrite !flush_ok. Qed.
Lemma fmul32_ok x y : fmul32 x y = mul32 x y.
Proof.
  unfold fmul32, mul32. rewrite !flush_ok. destruct (to_zero x) as [s|s| |s m e]; try reflexivity. destruct (to_zero y) as [t|t| |t n g]; try reflexivity.
  rewrite <- tiny_pos by lia. rewrite (tiny_wd (valQ (S754_finite s m e) * valQ (S754_finite t n g)) (inject_Z (Zpos m * Zpos n) * pow2 (e + g))); [reflexivity|].
  rewrite !valQ_finite, inject_Z_mult, pow2_add. unfold sgn. destruct s, t; [left|right|right|left]; ring.
Qed.

(* ------------------------------------------------------------------ *)
Lemma requantize32_value imin ioff iscale omin ooff oscale z : - 2147483648 <= z <= 2147483647 ->
  requantize32_f lane_ops32 (requantize_params imin ioff iscale omin ooff oscale) (LI z) =
    LI (clamp 0 255 (int_of_float truncated (requantize32_expr imin ioff iscale omin oscale z))).
Proof.
  intros H. transitivity (o_sqxtun lane_ops32 (o_sqxtn lane_ops32 (LI (int_of_float truncated (requantize32_expr imin ioff iscale omin oscale z))))).
  - unfold requantize32_f. cbn [requantize_params]. cbn [lane_ops32 lane_ops_of o_fadd o_fsub o_fmul o_scvtf o_fcvtzs].
    rewrite (wrapS_small 32 z) by (try lia; exact H). rewrite !fmul32_ok, !fadd32_ok, !fsub32_ok. reflexivity.
  - apply narrow_ok, int_of_float_range.
Qed.
Lemma quantize32_value min off scale x :
  quantize_f lane_ops32 (quantize_params min off scale) (LF x) = LI (clamp 0 255 (int_of_float truncated (quantize32_expr min off scale x))).
Proof.
  unfold quantize32_expr. rewrite <- fadd32_ok, <- fmul32_ok, <- fsub32_ok. exact (narrow_ok fadd32 fsub32 fmul32 _ (int_of_float_range _ _)).
Qed.
Lemma dequantize32_value min off scale z : 0 <= z <= 255 -> dequantize_f lane_ops32 (quantize_params min off scale) (LI z) = LF (dequantize32_expr min off scale z).
Proof.
  intros H. unfold dequantize_f, lane_ops32. rewrite (widen_ok _ _ _ z H). unfold dequantize32_expr. rewrite <- fadd32_ok, <- fmul32_ok, <- fsub32_ok. reflexivity.
Qed.
Lemma biasadd32_value imin ioff iscale bmin boff bscale omin ooff oscale z b : 0 <= z <= 255 -> 0 <= b <= 255 ->
  biasadd_f lane_ops32 (biasadd_params imin ioff iscale bmin boff bscale omin ooff oscale) (LI z) (LI b) =
    LI (clamp (- 2147483648) 2147483647 (int_of_float truncated (biasadd32_expr imin iscale bmin bscale omin ooff oscale z b))).
Proof.
  intros Hz Hb. transitivity (LI (int_of_float truncated (biasadd32_expr imin iscale bmin bscale omin ooff oscale z b))).
  - unfold biasadd_f, lane_ops32. rewrite (widen_ok _ _ _ z Hz), (widen_ok _ _ _ b Hb). unfold biasadd32_expr. rewrite <- !fadd32_ok, <- !fmul32_ok, <- !fsub32_ok. reflexivity.
  - f_equal. pose proof (int_of_float_range truncated (biasadd32_expr imin iscale bmin bscale omin ooff oscale z b)). unfold clamp. ltb_cases.
Qed.

(* ------------------------------------------------------------------ *)
(* whole arrays *)
Section Whole.
Context (fuel : nat) (junk : cpu (V := lane)) (count ip bp op : Z) (input bias : Z -> option lane).
Hypothesis Hj : length (c_v junk) = 32%nat.
Hypothesis Hc : 0 < count <= Z.of_nat fuel.

Theorem requantize32_run (data : Z -> Z) imin ioff iscale omin ooff oscale rows : readable input ip count (fun i => LI (data i)) ->
  (forall i, 0 <= i < count -> - 2147483648 <= data i <= 2147483647) ->
  exists out, Transform1D lane_ops32 (requantize_params imin ioff iscale omin ooff oscale) Requantize32K fuel junk count rows input ip bias bp op =
      Some (map (fun i => (op + i, LI (out i))) (zrange count)) /\
    forall i, 0 <= i < count -> integer_of truncates 0 255 (requantize32_expr imin ioff iscale omin oscale (data i)) (out i).
Proof.
  intros Hi Hd. exists (fun i => clamp 0 255 (int_of_float truncated (requantize32_expr imin ioff iscale omin oscale (data i)))). split.
  - rewrite (Transform1D_flat _ _ _ _ _ (requantize32_pieces lane_ops32 _) input bias _ (fun _ => LAny) fuel junk count rows ip bp op eq_refl Hj ltac:(lia) ltac:(lia) (readable_there _ _ _ _ Hi)).
    f_equal. apply (flat_log (fun i => requantize32_f _ _ (LI (data (ip + i - ip))))). intros i H. replace (ip + i - ip) with i by lia. now apply requantize32_value, Hd.
  - intros i H. apply truncated_int_ok; lia.
Qed.
Theorem quantize32_run (data : Z -> float) min off scale rows : readable input ip count (fun i => LF (data i)) ->
  exists out, Transform1D lane_ops32 (quantize_params min off scale) Quantize32K fuel junk count rows input ip bias bp op =
      Some (map (fun i => (op + i, LI (out i))) (zrange count)) /\
    forall i, 0 <= i < count -> integer_of truncates 0 255 (quantize32_expr min off scale (data i)) (out i).
Proof.
  intros Hi. exists (fun i => clamp 0 255 (int_of_float truncated (quantize32_expr min off scale (data i)))). split.
  - rewrite (Transform1D_flat _ _ _ _ _ (quantize32_pieces lane_ops32 _) input bias _ (fun _ => LAny) fuel junk count rows ip bp op eq_refl Hj ltac:(lia) ltac:(lia) (readable_there _ _ _ _ Hi)).
    f_equal. apply (flat_log (fun i => quantize_f _ _ (LF (data (ip + i - ip))))). intros i H. replace (ip + i - ip) with i by lia. apply quantize32_value.
  - intros i H. apply truncated_int_ok; lia.
Qed.
Theorem dequantize32_run (data : Z -> Z) min off scale rows : readable input ip count (fun i => LI (data i)) -> (forall i, 0 <= i < count -> 0 <= data i <= 255) ->
  Transform1D lane_ops32 (quantize_params min off scale) Dequantize32K fuel junk count rows input ip bias bp op =
    Some (map (fun i => (op + i, LF (dequantize32_expr min off scale (data i)))) (zrange count)).
Proof.
  intros Hi Hd.
  rewrite (Transform1D_flat _ _ _ _ _ (dequantize32_pieces lane_ops32 _) input bias _ (fun _ => LAny) fuel junk count rows ip bp op eq_refl Hj ltac:(lia) ltac:(lia) (readable_there _ _ _ _ Hi)).
  f_equal. apply (flat_log (fun i => dequantize_f _ _ (LI (data (ip + i - ip))))). intros i H. replace (ip + i - ip) with i by lia. now apply dequantize32_value, Hd.
Qed.
Theorem minmax32_run (data : Z -> Z) lo hi rows : 0 <= lo <= 255 -> 0 <= hi <= 255 ->
  readable input ip count (fun i => LI (data i)) -> (forall i, 0 <= i < count -> 0 <= data i <= 255) ->
  Transform1D lane_ops32 (minmax_params lo hi) MinMax32K fuel junk count rows input ip bias bp op =
    Some (map (fun i => (op + i, LI (if lo <=? hi then clamp lo hi (data i) else hi))) (zrange count)).
Proof.
  intros Hl Hh Hi Hd.
  rewrite (Transform1D_flat _ _ _ _ _ (minmax32_pieces lane_ops32 _) input bias _ (fun _ => LAny) fuel junk count rows ip bp op eq_refl Hj ltac:(lia) ltac:(lia) (readable_there _ _ _ _ Hi)).
  f_equal. apply (flat_log (fun i => minmax_f _ _ (LI (data (ip + i - ip))))). intros i H. replace (ip + i - ip) with i by lia. now apply minmax_value; [apply Hd| |].
Qed.
Theorem biasadd32_run (data bdata : Z -> Z) imin ioff iscale bmin boff bscale omin ooff oscale rows : 0 < rows <= Z.of_nat fuel ->
  readable input ip (rows * count) (fun i => LI (data i)) -> (forall i, 0 <= i < rows * count -> 0 <= data i <= 255) ->
  readable bias bp count (fun i => LI (bdata i)) -> (forall i, 0 <= i < count -> 0 <= bdata i <= 255) ->
  exists out, Transform1D lane_ops32 (biasadd_params imin ioff iscale bmin boff bscale omin ooff oscale) BiasAdd32K fuel junk count rows input ip bias bp op =
      Some (map (fun i => (op + i, LI (out i))) (zrange (rows * count))) /\
    forall i, 0 <= i < rows * count ->
      integer_of truncates (- 2147483648) 2147483647 (biasadd32_expr imin iscale bmin bscale omin ooff oscale (data i) (bdata (i mod count))) (out i).
Proof.
  intros Hr Hi Hd Hb Hbd.
  exists (fun i => clamp (- 2147483648) 2147483647 (int_of_float truncated (biasadd32_expr imin iscale bmin bscale omin ooff oscale (data i) (bdata (i mod count))))). split.
  - rewrite (Transform1D_rows _ _ _ _ _ (biasadd32_pieces lane_ops32 _) input bias _ _ fuel junk count rows ip bp op eq_refl Hj ltac:(lia) ltac:(lia) ltac:(lia) ltac:(lia)
      (readable_there _ _ _ _ Hi) (readable_there _ _ _ _ Hb)).
    f_equal. apply (flat_log (fun i => biasadd_f _ _ (LI (data (ip + i - ip))) (LI (bdata (bp + i mod count - bp))))). intros i H.
    replace (ip + i - ip) with i by lia. replace (bp + i mod count - bp) with (i mod count) by lia.
    apply biasadd32_value; [now apply Hd|apply Hbd; apply Z.mod_pos_bound; lia].
  - intros i H. apply truncated_int_ok; lia.
Qed.
End Whole.

Lemma costed32_pieces {V} (o : ops V) param k cost : In (k, cost) [(Requantize32K, 12); (Quantize32K, 8); (Dequantize32K, 12); (MinMax32K, 4)] ->
  (exists f ready, pieces_ok o param k f ready) /\ tk_rows k = false /\ 0 < cost <= 12.
Proof.
  intros H. cbn [In] in H. repeat (destruct H as [E|H]; [injection E as <- <-|]); try contradiction; (split; [|split; [reflexivity|lia]]); do 2 eexists.
  - apply requantize32_pieces.
  - apply quantize32_pieces.
  - apply dequantize32_pieces.
  - apply minmax32_pieces.
Qed.
Theorem multi_thread32_run {V} (o : ops V) param k cost mode fuel junk junk1 hw max_num_threads count rows (input bias : Z -> option V) (x : Z -> V) ip bp op :
  In (k, cost) [(Requantize32K, 12); (Quantize32K, 8); (Dequantize32K, 12); (MinMax32K, 4)] ->
  (forall n, length (c_v (junk n)) = 32%nat) -> length (c_v junk1) = 32%nat -> 0 < count <= Z.of_nat fuel -> count * cost <= 2147483647 ->
  readable input ip count x ->
  exists log logs, Transform1D o param k fuel junk1 count rows input ip bias bp op = Some log /\
    MultiThreadTransform1D o param mode k fuel junk hw max_num_threads cost count input ip op = Some logs /\
    1 <= Z.of_nat (length logs) <= Z.max 1 (ResolveMaxThreads hw max_num_threads) /\
    forall order m a, Permutation order (concat logs) -> write_all order m a = write_all log m a.
Proof. intros Hk. exact (multi_thread_pieces o param k cost mode fuel junk junk1 hw max_num_threads count rows input bias x ip bp op (costed32_pieces o param k cost Hk)). Qed.

(* the two processors store different bytes: one int32 with the scale 1/2 *)
Definition half_f : float := fdiv (float_of_Z 1) (float_of_Z 2).
Theorem requantize_processors_differ : exists p z, - 2147483648 <= z <= 2147483647 /\
  forall fuel junk rows (input bias : Z -> option lane) ip bp op, length (c_v junk) = 32%nat -> (1 <= fuel)%nat -> input ip = Some (LI z) ->
    Transform1D lane_ops p RequantizeK fuel junk 1 rows input ip bias bp op = Some [(op, LI 22)] /\
    Transform1D lane_ops32 p Requantize32K fuel junk 1 rows input ip bias bp op = Some [(op, LI 11)].
Proof.
  exists (requantize_params (float_of_Z 0) (float_of_Z 0) half_f (float_of_Z 0) (float_of_Z 10) (float_of_Z 1)), 23. split; [lia|].
  intros fuel junk rows input bias ip bp op Hj Hf Hi.
  assert (T : there input (fun _ => LI 23) ip (Z.to_nat 1)) by (intros j H; replace j with ip by lia; exact Hi).
  rewrite (Transform1D_flat _ _ _ _ _ (requantize32_pieces lane_ops32 _) input bias _ (fun _ => LAny) fuel junk 1 rows ip bp op eq_refl Hj ltac:(lia) ltac:(lia) T).
  rewrite (Transform1D_flat _ _ _ _ _ (requantize_pieces lane_ops _) input bias _ (fun _ => LAny) fuel junk 1 rows ip bp op eq_refl Hj ltac:(lia) ltac:(lia) T).
  change (zrange 1) with [0]. cbn [map]. rewrite Z.add_0_r.
  split; apply f_equal; (apply (f_equal2 cons); [|reflexivity]); (apply (f_equal2 pair); [reflexivity|]); vm_compute; reflexivity.
Qed.
