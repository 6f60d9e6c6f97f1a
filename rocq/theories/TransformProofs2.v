(* TransformProofs2.v: the values the transforms store, from the lanes of the
   processor to the formulas of TransformSpec.v. *)
From Coq Require Import SpecFloat QArith Qabs Permutation Lqa.
From Verif Require Import Base BaseLemmas OutputModel OutputProofs EightBitModel QuantModel MetaModel TransformModel TransformKernels TransformBlocks TransformProofs
  FloatSpec FloatProofs2 FloatProofs3 TransformSpec.
#[local] Open Scope Z_scope.

Lemma pow2_neg e : e < 0 -> (pow2 e * inject_Z (2 ^ (- e)) == 1)%Q.
Proof. intros H. rewrite <- pow2_Z by lia. rewrite <- pow2_add. replace (e + - e) with 0 by lia. reflexivity. Qed.
(* Zpos m * 2^e with e < 0 is Zpos m / D *)
Lemma value_neg m e : e < 0 -> (inject_Z (Zpos m) * pow2 e == Zpos m # Z.to_pos (2 ^ (- e)))%Q.
Proof.
  intros H. assert (P : 0 < 2 ^ (- e)) by (apply Z.pow_pos_nonneg; lia). pose proof (pow2_neg e H) as E.
  assert (N : ~ (inject_Z (2 ^ (- e)) == 0)%Q) by (intros N; unfold Qeq, inject_Z in N; cbn [Qnum Qden] in N; lia).
  apply (Qmult_inj_r _ _ _ N). rewrite <- Qmult_assoc, E, Qmult_1_r.
  clear E N. destruct (2 ^ (- e)) as [|D|D]; [lia| |lia]. unfold Qeq, Qmult, inject_Z. cbn [Qnum Qden Z.to_pos]. lia.
Qed.
Lemma value_nonneg m e : 0 <= e -> (inject_Z (Zpos m) * pow2 e == inject_Z (Zpos m * 2 ^ e))%Q.
Proof. intros H. rewrite pow2_Z by exact H. now rewrite inject_Z_mult. Qed.

Lemma exact_rounds q z : (q == inject_Z z)%Q -> rounds_even q z.
Proof.
  intros E. assert (E0 : (q - inject_Z z == 0)%Q) by (rewrite E; ring). split.
  - rewrite E0. discriminate.
  - intros H. rewrite E0 in H. discriminate H.
Qed.
Lemma exact_truncates q z : (q == inject_Z z)%Q -> truncates q z.
Proof.
  intros E. split; intros _; rewrite E; rewrite <- Zle_Qle, <- Zlt_Qlt; lia.
Qed.
Lemma frac_minus n d z : (n # d) - inject_Z z == (n - z * Zpos d) # d.
Proof. unfold Qeq, Qminus, Qplus, Qopp, inject_Z. cbn [Qnum Qden]. rewrite Pos.mul_1_r. lia. Qed.
Lemma frac_rounds n d z : 2 * Z.abs (n - z * Zpos d) <= Zpos d -> (2 * Z.abs (n - z * Zpos d) = Zpos d -> Z.even z = true) -> rounds_even (n # d) z.
Proof.
  intros H E. split.
  - rewrite frac_minus. unfold Qle, Qabs. cbn [Qnum Qden]. lia.
  - rewrite frac_minus. unfold Qeq, Qabs. cbn [Qnum Qden]. intros H'. apply E. lia.
Qed.
Lemma nearest_even_ok m e : rounds_even (inject_Z (Zpos m) * pow2 e) (nearest_even m e).
Proof.
  unfold nearest_even. destruct (Z.leb_spec 0 e) as [H|H]; [apply exact_rounds, value_nonneg, H|].
  assert (P : 0 < 2 ^ (- e)) by (apply Z.pow_pos_nonneg; lia).
  assert (G : forall z, 2 * Z.abs (Zpos m - z * 2 ^ (- e)) <= 2 ^ (- e) -> (2 * Z.abs (Zpos m - z * 2 ^ (- e)) = 2 ^ (- e) -> Z.even z = true) ->
    rounds_even (inject_Z (Zpos m) * pow2 e) z).
  { intros z H1 H2. assert (R : rounds_even (Zpos m # Z.to_pos (2 ^ (- e))) z) by (apply frac_rounds; rewrite Z2Pos.id by exact P; assumption).
    unfold rounds_even in *. rewrite (value_neg m e H). exact R. }
  pose proof (Z.div_mod (Zpos m) (2 ^ (- e)) ltac:(lia)) as E. pose proof (Z.mod_pos_bound (Zpos m) (2 ^ (- e)) P) as B.
  generalize dependent (Zpos m / 2 ^ (- e)). intros q E. generalize dependent (Zpos m mod 2 ^ (- e)). intros r E B.
  generalize dependent (2 ^ (- e)). intros D P G E B.
  destruct (Z.ltb_spec (2 * r) D) as [L|L]; [apply G; nia|]. destruct (Z.ltb_spec D (2 * r)) as [L'|L']; [apply G; nia|].
  destruct (Z.even q) eqn:Ev; apply G; try nia; [auto|]. intros _. rewrite Z.even_add, Ev. reflexivity.
Qed.
Lemma truncated_ok m e : truncates (inject_Z (Zpos m) * pow2 e) (truncated m e).
Proof.
  unfold truncated. destruct (Z.leb_spec 0 e) as [H|H]; [apply exact_truncates, value_nonneg, H|].
  assert (P : 0 < 2 ^ (- e)) by (apply Z.pow_pos_nonneg; lia). unfold truncates. rewrite (value_neg m e H).
  pose proof (Z.div_mod (Zpos m) (2 ^ (- e)) ltac:(lia)) as E. pose proof (Z.mod_pos_bound (Zpos m) (2 ^ (- e)) P) as B.
  split; intros S.
  - unfold Qle, Qlt, inject_Z. cbn [Qnum Qden]. rewrite Z2Pos.id by exact P. nia.
  - unfold Qle in S. cbn [Qnum Qden] in S. lia.
Qed.
Lemma rounds_even_opp q z : rounds_even q z -> rounds_even (- q) (- z).
Proof.
  unfold rounds_even. rewrite inject_Z_opp, Z.even_opp. assert (E : (Qabs (- q - - inject_Z z) == Qabs (q - inject_Z z))%Q).
  { rewrite <- Qabs_opp. apply Qabs_wd. ring. }
  now rewrite E.
Qed.
Lemma truncates_opp q z : truncates q z -> truncates (- q) (- z).
Proof.
  unfold truncates. intros (A & B). replace (- z + 1) with (- (z - 1)) by lia. replace (- z - 1) with (- (z + 1)) by lia. rewrite !inject_Z_opp.
  split; intros H.
  - assert (H' : (q <= 0)%Q) by lra. apply B in H'. destruct H'. split; lra.
  - assert (H' : (0 <= q)%Q) by lra. apply A in H'. destruct H'. split; lra.
Qed.
Ltac ltb_cases := repeat match goal with |- context [?a <? ?b] => destruct (Z.ltb_spec a b) end; lia.
(* int_of_float saturates to int32 what the rounding gives *)
Lemma int_of_float_ok round (rounds : Q -> Z -> Prop) x :
  (forall m e, rounds (inject_Z (Zpos m) * pow2 e)%Q (round m e)) -> (forall q z, rounds q z -> rounds (- q)%Q (- z)) -> (forall q q' z, (q == q')%Q -> rounds q z -> rounds q' z) ->
  rounds 0%Q 0 -> forall lo hi, - 2147483648 <= lo <= 0 -> 0 <= hi <= 2147483647 ->
  integer_of rounds lo hi x (clamp lo hi (int_of_float round x)).
Proof.
  intros R1 R2 R3 R0 lo hi Hl Hh. unfold clamp. destruct x as [s|s| |s m e]; cbn [integer_of int_of_float].
  - exists 0. split; [exact R0|]. reflexivity.
  - destruct s; ltb_cases.
  - ltb_cases.
  - exists (if s then - round m e else round m e). split.
    + destruct s.
      * apply (R3 (- (inject_Z (Zpos m) * pow2 e))%Q); [rewrite valQ_finite; unfold sgn; ring|]. apply R2, R1.
      * apply (R3 (inject_Z (Zpos m) * pow2 e)%Q); [rewrite valQ_finite; unfold sgn; ring|]. apply R1.
    + generalize (if s then - round m e else round m e). intros z. unfold sat32, clamp. ltb_cases.
Qed.

Lemma rounds_even_wd q q' z : (q == q')%Q -> rounds_even q z -> rounds_even q' z.
Proof. unfold rounds_even. intros E H. now rewrite <- E. Qed.
Lemma truncates_wd q q' z : (q == q')%Q -> truncates q z -> truncates q' z.
Proof. unfold truncates. intros E H. now rewrite <- E. Qed.
Lemma nearest_int_ok x lo hi : - 2147483648 <= lo <= 0 -> 0 <= hi <= 2147483647 -> integer_of rounds_even lo hi x (clamp lo hi (int_of_float nearest_even x)).
Proof.
  apply int_of_float_ok; [exact nearest_even_ok|exact rounds_even_opp|exact rounds_even_wd|]. now apply exact_rounds.
Qed.
Lemma truncated_int_ok x lo hi : - 2147483648 <= lo <= 0 -> 0 <= hi <= 2147483647 -> integer_of truncates lo hi x (clamp lo hi (int_of_float truncated x)).
Proof.
  apply int_of_float_ok; [exact truncated_ok|exact truncates_opp|exact truncates_wd|]. now apply exact_truncates.
Qed.
Lemma int_of_float_range round x : - 2147483648 <= int_of_float round x <= 2147483647.
Proof. destruct x as [s|s| |s m e]; cbn [int_of_float]; [lia|destruct s; lia|lia|]. unfold sat32. lia. Qed.
(* dwords to words to bytes *)
Lemma narrow_ok add sub mul z : - 2147483648 <= z <= 2147483647 -> o_sqxtun (lane_ops_of add sub mul) (o_sqxtn (lane_ops_of add sub mul) (LI z)) = LI (clamp 0 255 z).
Proof.
  intros H. cbn [lane_ops lane_ops_of o_sqxtun o_sqxtn]. rewrite (wrapS_small 32) by (try lia; exact H).
  rewrite wrapS_small by (try lia; unfold int_min, int_max; cbn; lia). f_equal. unfold clamp. ltb_cases.
Qed.

(* ------------------------------------------------------------------ *)
Section Values.
Local Notation int32 z := (- 2147483648 <= z <= 2147483647).
Lemma requantize_value imin ioff iscale omin ooff oscale z : int32 z ->
  requantize_f lane_ops (requantize_params imin ioff iscale omin ooff oscale) (LI z) =
    LI (clamp 0 255 (int_of_float nearest_even (requantize_expr imin ioff iscale omin ooff oscale z))).
Proof.
  intros H. transitivity (o_sqxtun lane_ops (o_sqxtn lane_ops (LI (int_of_float nearest_even (requantize_expr imin ioff iscale omin ooff oscale z))))).
  - unfold requantize_f. cbn [requantize_params]. cbn [lane_ops lane_ops_of o_fadd o_fsub o_fmul o_scvtf o_fcvtns].
    rewrite (wrapS_small 32 z) by (try lia; exact H). reflexivity.
  - apply narrow_ok, int_of_float_range.
Qed.
Lemma quantize_value min off scale x :
  quantize_f lane_ops (quantize_params min off scale) (LF x) = LI (clamp 0 255 (int_of_float truncated (quantize_expr min off scale x))).
Proof.
  exact (narrow_ok fadd fsub fmul _ (int_of_float_range _ _)).
Qed.
Lemma widen_ok add sub mul z : 0 <= z <= 255 -> o_scvtf (lane_ops_of add sub mul) (o_sxtl (lane_ops_of add sub mul) (o_uxtl (lane_ops_of add sub mul) (LI z))) = LF (of_int z).
Proof.
  intros H. cbn [lane_ops lane_ops_of o_scvtf o_sxtl o_uxtl]. unfold wrapU. rewrite Z.mod_small by (cbn; lia).
  rewrite (wrapS_small 16 z) by (try lia; unfold int_min, int_max; cbn; lia). rewrite wrapS_small by (try lia; unfold int_min, int_max; cbn; lia). reflexivity.
Qed.
Lemma dequantize_value min off scale z : 0 <= z <= 255 -> dequantize_f lane_ops (quantize_params min off scale) (LI z) = LF (dequantize_expr min off scale z).
Proof. intros H. unfold dequantize_f. unfold lane_ops. rewrite (widen_ok _ _ _ z H). reflexivity. Qed.
Lemma minmax_value add sub mul lo hi z : 0 <= z <= 255 -> 0 <= lo <= 255 -> 0 <= hi <= 255 ->
  minmax_f (lane_ops_of add sub mul) (minmax_params lo hi) (LI z) = LI (if lo <=? hi then clamp lo hi z else hi).
Proof.
  intros Hz Hl Hh. unfold minmax_f. cbn [minmax_params lane_ops_of o_umin o_umax]. unfold wrapU. rewrite !(Z.mod_small _ (2 ^ 8)) by (cbn; lia).
  f_equal. unfold clamp. destruct (Z.leb_spec lo hi); ltb_cases.
Qed.
Lemma biasadd_value imin ioff iscale bmin boff bscale omin ooff oscale z b : 0 <= z <= 255 -> 0 <= b <= 255 ->
  biasadd_f lane_ops (biasadd_params imin ioff iscale bmin boff bscale omin ooff oscale) (LI z) (LI b) =
    LI (clamp (- 2147483648) 2147483647 (int_of_float truncated (biasadd_expr imin iscale bmin bscale omin ooff oscale z b))).
Proof.
  intros Hz Hb. unfold biasadd_f. unfold lane_ops. rewrite (widen_ok _ _ _ z Hz), (widen_ok _ _ _ b Hb). cbn [biasadd_params]. cbn [lane_ops lane_ops_of o_fadd o_fsub o_fmul o_fcvtzs].
  change (LI (int_of_float truncated (biasadd_expr imin iscale bmin bscale omin ooff oscale z b)) = LI (clamp (- 2147483648) 2147483647 (int_of_float truncated (biasadd_expr imin iscale bmin bscale omin ooff oscale z b)))).
  f_equal. pose proof (int_of_float_range truncated (biasadd_expr imin iscale bmin bscale omin ooff oscale z b)). unfold clamp. ltb_cases.
Qed.
End Values.

(* ------------------------------------------------------------------ *)
(* whole arrays *)
Lemma readable_there {A} (input : Z -> option A) ip n x : readable input ip n x -> there input (fun j => x (j - ip)) ip (Z.to_nat n).
Proof. intros H j Hj. replace j with (ip + (j - ip)) at 1 by lia. apply H. lia. Qed.
Lemma flat_log {A} (g : Z -> A) op count (h : Z -> A) : (forall i, 0 <= i < count -> g i = h i) ->
  map (fun i => (op + i, g i)) (zrange count) = map (fun i => (op + i, h i)) (zrange count).
Proof. intros H. apply map_ext_in. intros i Hi. apply zrange_In in Hi. now rewrite H by lia. Qed.

Section Whole.
Context (fuel : nat) (junk : cpu (V := lane)) (count ip bp op : Z) (input bias : Z -> option lane) (data : Z -> Z).
Hypothesis Hj : length (c_v junk) = 32%nat.
Hypothesis Hc : 0 < count <= Z.of_nat fuel.

Theorem requantize_run imin ioff iscale omin ooff oscale rows : readable input ip count (fun i => LI (data i)) ->
  (forall i, 0 <= i < count -> - 2147483648 <= data i <= 2147483647) ->
  exists out, Transform1D lane_ops (requantize_params imin ioff iscale omin ooff oscale) RequantizeK fuel junk count rows input ip bias bp op =
      Some (map (fun i => (op + i, LI (out i))) (zrange count)) /\
    forall i, 0 <= i < count -> integer_of rounds_even 0 255 (requantize_expr imin ioff iscale omin ooff oscale (data i)) (out i).
Proof.
  intros Hi Hd. exists (fun i => clamp 0 255 (int_of_float nearest_even (requantize_expr imin ioff iscale omin ooff oscale (data i)))). split.
  - rewrite (Transform1D_flat _ _ _ _ _ (requantize_pieces lane_ops _) input bias _ (fun _ => LAny) fuel junk count rows ip bp op eq_refl Hj ltac:(lia) ltac:(lia) (readable_there _ _ _ _ Hi)).
    f_equal. apply (flat_log (fun i => requantize_f _ _ (LI (data (ip + i - ip))))). intros i H. replace (ip + i - ip) with i by lia. now apply requantize_value, Hd.
  - intros i H. apply nearest_int_ok; lia.
Qed.
Theorem quantize_run (fdata : Z -> float) min off scale rows : readable input ip count (fun i => LF (fdata i)) ->
  exists out, Transform1D lane_ops (quantize_params min off scale) QuantizeK fuel junk count rows input ip bias bp op =
      Some (map (fun i => (op + i, LI (out i))) (zrange count)) /\
    forall i, 0 <= i < count -> integer_of truncates 0 255 (quantize_expr min off scale (fdata i)) (out i).
Proof.
  intros Hi. exists (fun i => clamp 0 255 (int_of_float truncated (quantize_expr min off scale (fdata i)))). split.
  - rewrite (Transform1D_flat _ _ _ _ _ (quantize_pieces lane_ops _) input bias _ (fun _ => LAny) fuel junk count rows ip bp op eq_refl Hj ltac:(lia) ltac:(lia) (readable_there _ _ _ _ Hi)).
    f_equal. apply (flat_log (fun i => quantize_f _ _ (LF (fdata (ip + i - ip))))). intros i H. replace (ip + i - ip) with i by lia. apply quantize_value.
  - intros i H. apply truncated_int_ok; lia.
Qed.
Theorem dequantize_run min off scale rows : readable input ip count (fun i => LI (data i)) -> (forall i, 0 <= i < count -> 0 <= data i <= 255) ->
  Transform1D lane_ops (quantize_params min off scale) DequantizeK fuel junk count rows input ip bias bp op =
    Some (map (fun i => (op + i, LF (dequantize_expr min off scale (data i)))) (zrange count)).
Proof.
  intros Hi Hd.
  rewrite (Transform1D_flat _ _ _ _ _ (dequantize_pieces lane_ops _) input bias _ (fun _ => LAny) fuel junk count rows ip bp op eq_refl Hj ltac:(lia) ltac:(lia) (readable_there _ _ _ _ Hi)).
  f_equal. apply (flat_log (fun i => dequantize_f _ _ (LI (data (ip + i - ip))))). intros i H. replace (ip + i - ip) with i by lia. now apply dequantize_value, Hd.
Qed.
Theorem minmax_run lo hi rows : 0 <= lo <= 255 -> 0 <= hi <= 255 ->
  readable input ip count (fun i => LI (data i)) -> (forall i, 0 <= i < count -> 0 <= data i <= 255) ->
  Transform1D lane_ops (minmax_params lo hi) MinMaxK fuel junk count rows input ip bias bp op =
    Some (map (fun i => (op + i, LI (if lo <=? hi then clamp lo hi (data i) else hi))) (zrange count)).
Proof.
  intros Hl Hh Hi Hd.
  rewrite (Transform1D_flat _ _ _ _ _ (minmax_pieces lane_ops _) input bias _ (fun _ => LAny) fuel junk count rows ip bp op eq_refl Hj ltac:(lia) ltac:(lia) (readable_there _ _ _ _ Hi)).
  f_equal. apply (flat_log (fun i => minmax_f _ _ (LI (data (ip + i - ip))))). intros i H. replace (ip + i - ip) with i by lia. now apply minmax_value; [apply Hd| |].
Qed.
Theorem biasadd_run (bdata : Z -> Z) imin ioff iscale bmin boff bscale omin ooff oscale rows : 0 < rows <= Z.of_nat fuel ->
  readable input ip (rows * count) (fun i => LI (data i)) -> (forall i, 0 <= i < rows * count -> 0 <= data i <= 255) ->
  readable bias bp count (fun i => LI (bdata i)) -> (forall i, 0 <= i < count -> 0 <= bdata i <= 255) ->
  exists out, Transform1D lane_ops (biasadd_params imin ioff iscale bmin boff bscale omin ooff oscale) BiasAddK fuel junk count rows input ip bias bp op =
      Some (map (fun i => (op + i, LI (out i))) (zrange (rows * count))) /\
    forall i, 0 <= i < rows * count ->
      integer_of truncates (- 2147483648) 2147483647 (biasadd_expr imin iscale bmin bscale omin ooff oscale (data i) (bdata (i mod count))) (out i).
Proof.
  intros Hr Hi Hd Hb Hbd.
  exists (fun i => clamp (- 2147483648) 2147483647 (int_of_float truncated (biasadd_expr imin iscale bmin bscale omin ooff oscale (data i) (bdata (i mod count))))). split.
  - rewrite (Transform1D_rows _ _ _ _ _ (biasadd_pieces lane_ops _) input bias _ _ fuel junk count rows ip bp op eq_refl Hj ltac:(lia) ltac:(lia) ltac:(lia) ltac:(lia)
      (readable_there _ _ _ _ Hi) (readable_there _ _ _ _ Hb)).
    f_equal. apply (flat_log (fun i => biasadd_f _ _ (LI (data (ip + i - ip))) (LI (bdata (bp + i mod count - bp))))). intros i H.
    replace (ip + i - ip) with i by lia. replace (bp + i mod count - bp) with (i mod count) by lia.
    apply biasadd_value; [now apply Hd|apply Hbd; apply Z.mod_pos_bound; lia].
  - intros i H. apply truncated_int_ok; lia.
Qed.
End Whole.

(* ------------------------------------------------------------------ *)
(* The kernels with a Transform1DUtil and the factor of its EstimateComputeCost,
   transform_kernels.h 163-229 *)
Definition costed : list (tkernel * Z) := [(RequantizeK, 12); (QuantizeK, 8); (DequantizeK, 12); (MinMaxK, 4)].
Lemma costed_pieces {V} (o : ops V) param k cost : In (k, cost) costed ->
  (exists f ready, pieces_ok o param k f ready) /\ tk_rows k = false /\ 0 < cost <= 12.
Proof.
  intros H. cbn [costed In] in H. repeat (destruct H as [E|H]; [injection E as <- <-|]); try contradiction; (split; [|split; [reflexivity|lia]]); do 2 eexists.
  - apply requantize_pieces.
  - apply quantize_pieces.
  - apply dequantize_pieces.
  - apply minmax_pieces.
Qed.
Lemma multi_thread_pieces {V} (o : ops V) param k cost mode fuel junk junk1 hw max_num_threads count rows (input bias : Z -> option V) (x : Z -> V) ip bp op :
  ((exists f ready, pieces_ok o param k f ready) /\ tk_rows k = false /\ 0 < cost <= 12) -> (forall n, length (c_v (junk n)) = 32%nat) -> length (c_v junk1) = 32%nat -> 0 < count <= Z.of_nat fuel -> count * cost <= 2147483647 ->
  readable input ip count x ->
  exists log logs, Transform1D o param k fuel junk1 count rows input ip bias bp op = Some log /\
    MultiThreadTransform1D o param mode k fuel junk hw max_num_threads cost count input ip op = Some logs /\
    1 <= Z.of_nat (length logs) <= Z.max 1 (ResolveMaxThreads hw max_num_threads) /\
    forall order m a, Permutation order (concat logs) -> write_all order m a = write_all log m a.
Proof.
  intros ((f & ready & HK) & Hr & Hcost) Hj Hj1 Hc Ho Hi.
  pose proof (readable_there _ _ _ _ Hi) as Ht.
  pose proof (Transform1D_flat o param k f ready HK input bias _ (fun _ => o_any o) fuel junk1 count rows ip bp op Hr Hj1 ltac:(lia) ltac:(lia) Ht) as E1.
  destruct (MultiThread_run o param k f ready HK mode fuel junk hw max_num_threads cost count input (fun j => x (j - ip)) ip op Hr Hj ltac:(lia) Hcost Ho ltac:(lia)) as (logs & E & L & C).
  { intros j H. apply Ht. lia. }
  eexists. exists logs. split; [exact E1|]. split; [exact E|]. split; [exact L|]. intros order m a P. rewrite C in P.
  set (G := fun i => f (x (ip + i - ip)) (x (ip + i - ip))). rewrite (write_all_any_order G op count order m P a). symmetry.
  apply (write_all_any_order G op count _ m (Permutation_refl _) a).
Qed.
Theorem multi_thread_run {V} (o : ops V) param k cost mode fuel junk junk1 hw max_num_threads count rows (input bias : Z -> option V) (x : Z -> V) ip bp op :
  In (k, cost) costed -> (forall n, length (c_v (junk n)) = 32%nat) -> length (c_v junk1) = 32%nat -> 0 < count <= Z.of_nat fuel -> count * cost <= 2147483647 ->
  readable input ip count x ->
  exists log logs, Transform1D o param k fuel junk1 count rows input ip bias bp op = Some log /\
    MultiThreadTransform1D o param mode k fuel junk hw max_num_threads cost count input ip op = Some logs /\
    1 <= Z.of_nat (length logs) <= Z.max 1 (ResolveMaxThreads hw max_num_threads) /\
    forall order m a, Permutation order (concat logs) -> write_all order m a = write_all log m a.
Proof. intros Hk. exact (multi_thread_pieces o param k cost mode fuel junk junk1 hw max_num_threads count rows input bias x ip bp op (costed_pieces o param k cost Hk)). Qed.

(* ------------------------------------------------------------------ *)
Theorem no_elements {V} (o : ops V) param k fuel junk count rows input ip bias bp op : count <= 0 ->
  Transform1D o param k fuel junk count rows input ip bias bp op = None.
Proof. exact (Transform1D_nonpositive o param k input bias (fun _ => o_any o) (fun _ => o_any o) fuel junk count rows ip bp op). Qed.
Theorem test_requantize fuel junk (input bias : Z -> option lane) (data : Z -> Z) ip bp op : length (c_v junk) = 32%nat -> 12345 <= Z.of_nat fuel ->
  readable input ip 12345 (fun i => LI (data i)) -> (forall i, 0 <= i < 12345 -> - 2147483648 <= data i <= 2147483647) -> data 0 = - 2000000000 ->
  exists log, Transform1D lane_ops test_requantize_params RequantizeK fuel junk 12345 1 input ip bias bp op = Some log /\ In (op, LI 9) log.
Proof.
  intros Hj Hf Hi Hd H0.
  rewrite (Transform1D_flat _ _ _ _ _ (requantize_pieces lane_ops _) input bias _ (fun _ => LAny) fuel junk 12345 1 ip bp op eq_refl Hj ltac:(lia) ltac:(lia) (readable_there _ _ _ _ Hi)).
  eexists. split; [reflexivity|]. apply in_map_iff. exists 0. split; [|apply zrange_In; lia]. rewrite Z.add_0_r, Z.add_0_r.
  replace (ip - ip) with 0 by lia. rewrite H0. apply (f_equal2 pair); [reflexivity|]. vm_compute. reflexivity.
Qed.
(* the kernel of BiasAdd without the offsets, the test with them *)
Theorem biasadd_ignores_offsets : exists imin ioff iscale bmin boff bscale omin ooff oscale z b,
  0 <= z <= 255 /\ 0 <= b <= 255 /\
  (forall fuel junk rows (input bias : Z -> option lane) ip bp op, length (c_v junk) = 32%nat -> rows = 1 -> (1 <= fuel)%nat -> input ip = Some (LI z) -> bias bp = Some (LI b) ->
     Transform1D lane_ops (biasadd_params imin ioff iscale bmin boff bscale omin ooff oscale) BiasAddK fuel junk 1 rows input ip bias bp op = Some [(op, LI 150)]) /\
  integer_of truncates (- 2147483648) 2147483647 (test_biasadd_expr imin ioff iscale bmin boff bscale omin ooff oscale z b) 115.
Proof.
  exists (float_of_Z 0), (float_of_Z 20), (float_of_Z 1), (float_of_Z 0), (float_of_Z 15), (float_of_Z 1), (float_of_Z 0), (float_of_Z 0), (float_of_Z 1), 100, 50.
  split; [lia|]. split; [lia|]. split.
  - intros fuel junk rows input bias ip bp op Hj -> Hf Hi Hb.
    rewrite (Transform1D_rows _ _ _ _ _ (biasadd_pieces lane_ops _) input bias (fun _ => LI 100) (fun _ => LI 50) fuel junk 1 1 ip bp op eq_refl Hj ltac:(lia) ltac:(lia) ltac:(lia) ltac:(lia)).
    + change (zrange (1 * 1)) with [0]. cbn [map]. rewrite Z.add_0_r. apply f_equal. apply (f_equal2 cons); [|reflexivity]. apply (f_equal2 pair); [reflexivity|]. vm_compute. reflexivity.
    + intros j H. replace j with ip by lia. exact Hi.
    + intros j H. replace j with bp by lia. exact Hb.
  - replace 115 with (clamp (- 2147483648) 2147483647 (int_of_float truncated (test_biasadd_expr (float_of_Z 0) (float_of_Z 20) (float_of_Z 1) (float_of_Z 0) (float_of_Z 15) (float_of_Z 1) (float_of_Z 0) (float_of_Z 0) (float_of_Z 1) 100 50))) by (vm_compute; reflexivity).
    apply truncated_int_ok; lia.
Qed.
Theorem test_requantize_expected : integer_of truncates 0 255
  (test_requantize_expr (float_of_Z (-100)) (float_of_Z (- 2147483648)) test_scale (float_of_Z (-100)) (float_of_Z 0) test_one_over (- 2000000000)) 8.
Proof.
  replace 8 with (clamp 0 255 (int_of_float truncated (test_requantize_expr (float_of_Z (-100)) (float_of_Z (- 2147483648)) test_scale (float_of_Z (-100)) (float_of_Z 0) test_one_over (- 2000000000)))) by (vm_compute; reflexivity).
  apply truncated_int_ok; lia.
Qed.
Theorem test_requantize_differs : exists z, - 2147483648 <= z <= 2147483647 /\
  (forall fuel junk (input bias : Z -> option lane) (data : Z -> Z) ip bp op, length (c_v junk) = 32%nat -> 12345 <= Z.of_nat fuel ->
     readable input ip 12345 (fun i => LI (data i)) -> (forall i, 0 <= i < 12345 -> - 2147483648 <= data i <= 2147483647) -> data 0 = z ->
     exists log, Transform1D lane_ops test_requantize_params RequantizeK fuel junk 12345 1 input ip bias bp op = Some log /\ In (op, LI 9) log) /\
  integer_of truncates 0 255 (test_requantize_expr (float_of_Z (-100)) (float_of_Z (- 2147483648)) test_scale (float_of_Z (-100)) (float_of_Z 0) test_one_over z) 8.
Proof. exists (- 2000000000). split; [lia|]. split; [exact test_requantize|exact test_requantize_expected]. Qed.
(* no elements or no rows *)
Theorem terminates_not : exists count, 0 <= count /\ forall V (o : ops V) param k fuel junk rows input ip bias bp op,
  Transform1D o param k fuel junk count rows input ip bias bp op = None.
Proof. exists 0. split; [lia|]. intros. now apply no_elements. Qed.
Theorem no_rows {V} (o : ops V) param fuel junk count rows input ip bias bp op : rows <= 0 ->
  Transform1D o param BiasAddK fuel junk count rows input ip bias bp op = None.
Proof. exact (Transform1D_no_rows o param BiasAddK input bias fuel junk count rows ip bp op eq_refl). Qed.
Theorem cost_overflows : exists count, 0 < count <= 2147483647 /\ forall max_threads, PrepareTransform1DTasks Trap max_threads 12 count = None.
Proof. exists 178956971. split; [lia|]. intros. reflexivity. Qed.

(* for the examples *)
Definition ex_regs : cpu (V := lane) := mk_cpu LAny (map (fun _ _ _ => LAny) (seq 0 32)).
Definition ex_memory (n : Z) (x : Z -> lane) (a : Z) : option lane := if (100 <=? a) && (a <? 100 + n) then Some (x (a - 100)) else None.
Definition ex_values (log : option (list (Z * lane))) : option (list Z) :=
  match log with Some l => Some (map (fun av => match snd av with LI z => z | _ => -1 end) l) | None => None end.
