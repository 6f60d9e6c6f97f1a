(* GemmExample.v: a concrete GEMM call used beside the theorems of Props_Gemm.v
   to show that their hypotheses can be met: 2x3 times 3x4 (so the dispatch
   transposes), row-major operands with gaps, per-row offsets, bias, standard
   quantization, two kernel formats, 1 and several threads. *)
From Verif Require Import Base BaseLemmas CommonModel PackModel GemmSpec FixedPointModel FixedPointSpec ComputeModel KernelSpec
  KernelProofs PackProofs4 OutputModel OutputSpec OutputSimdSpec UnpackModel GemmModel GemmContract.

(* a row-major matrix with a gap after each row; only its entries are allocated *)
Definition gap_mem (base rows cols stride : Z) (f : Z -> Z -> Z) : mem := fun a =>
  let r := (a - base) / stride in
  let c := (a - base) mod stride in
  if (0 <=? r) && (r <? rows) && (c <? cols) then Some (f r c) else None.
Lemma gap_holds base rows cols stride f : 0 < cols <= stride -> (forall r c, 0 <= f r c <= 255) ->
  holds_matrix (gap_mem base rows cols stride f) (mk_map base rows cols stride RowMajor) f.
Proof.
  intros Hs Hf r c Hr Hc. cbn in Hr, Hc. split; [|apply Hf]. unfold gap_mem, entry_addr. cbn.
  replace (base + r * stride + c - base) with (c + r * stride) by lia.
  rewrite Z.div_add, Z.mod_add by lia. rewrite Z.div_small, Z.mod_small by lia. rewrite Z.add_0_l.
  replace ((0 <=? r) && (r <? rows) && (c <? cols)) with true by lia. reflexivity.
Qed.
Lemma gap_only base rows cols stride f : 0 < cols <= stride ->
  only_view (gap_mem base rows cols stride f) (mk_map base rows cols stride RowMajor).
Proof.
  intros Hs a Ha. unfold gap_mem in Ha. exists ((a - base) / stride), ((a - base) mod stride). cbn [mm_rows mm_cols].
  destruct ((0 <=? (a - base) / stride) && ((a - base) / stride <? rows) && ((a - base) mod stride <? cols)) eqn:E; [|congruence].
  pose proof (Z.mod_pos_bound (a - base) stride ltac:(lia)). unfold entry_addr. cbn.
  pose proof (Z.div_mod (a - base) stride ltac:(lia)). lia.
Qed.

Definition exL (r d : Z) : Z := (37 * r + 11 * d + 200) mod 256.
Definition exR (d c : Z) : Z := (29 * d + 71 * c + 90) mod 256.
Definition ex_lhs : operand := mk_operand (gap_mem 3 2 3 5 exL) (mk_map 3 2 3 5 RowMajor).
Definition ex_rhs : operand := mk_operand (gap_mem 7 3 4 6 exR) (mk_map 7 3 4 6 RowMajor).
Definition ex_result : matrix_map := mk_map 10 2 4 3 ColMajor.
Definition ex_vec (l : list Z) : vmap :=
  mk_vmap (fun a => if 0 <=? a then nth_error l (Z.to_nat a) else None) 0 (Z.of_nat (length l)).
Definition ex_lo : vec := VMap VCol (ex_vec [-128; -7]).
Definition ex_ro : vec := VDup VRow (-100) 4.
Definition exLO (r : Z) : Z := if r =? 0 then -128 else -7.
Definition exRO (_ : Z) : Z := -100.
Definition ex_pipe : list stage :=
  [SBias (VMap VRow (ex_vec [1000; -2000; 3000; 77])); SQuantizeDown 50 13 10; SSatU8].
Definition ex_out (r c : Z) : Z :=
  match pipe_at Trap ex_pipe r c (offset_product exL exR exLO exRO 3 r c) with Some v => v | None => 0 end.
Definition ex_fmt1 : kernel_fmt :=
  mk_kernel_fmt (mk_side_fmt 2 2 CWidthMajor 2 FUint8) (mk_side_fmt 2 2 CDepthMajor 1 FUint8) 4.
Definition ex_fmt2 : kernel_fmt :=
  mk_kernel_fmt (mk_side_fmt 4 4 CDiagonal 1 FUint8) (mk_side_fmt 3 4 CWidthMajor 2 FUint8) 8.
Definition ex_tune (l1 l2 : Z) : tuning :=
  {| t_l1_bytes := l1; t_l2_bytes := l2; t_factor := {| rf_mul := fun x => Some (x / 4); rf_is_one := false |} |}.
Definition ex_scratch (j : Z) : scratch :=
  mk_scratch (fun a => a + j) (fun _ => j) (fun a => 3 * a + j) (fun _ => 99) (fun a => a - j) (fun _ => 5) (fun _ => 6).
Definition ex_before : mem := fun a => if (0 <=? a) && (a <? 40) then Some 222 else None.

Lemma ex_fmt1_ok : kernel_fmt_ok ex_fmt1.
Proof.
  split; [|split; [|split; [reflexivity|]]].
  - split; [cbn; lia|]. split; [cbn; lia|]. split; [cbn; lia|]. cbn. intros; congruence.
  - split; [cbn; lia|]. split; [cbn; lia|]. split; [cbn; lia|]. cbn. intros; congruence.
  - split; [cbn; lia|]. exists 2. reflexivity.
Qed.
Lemma ex_fmt2_ok : kernel_fmt_ok ex_fmt2.
Proof.
  split; [|split; [|split; [reflexivity|]]].
  - split; [cbn; lia|]. split; [cbn; lia|]. split; [cbn; lia|]. cbn. reflexivity.
  - split; [cbn; lia|]. split; [cbn; lia|]. split; [cbn; lia|]. cbn. intros; congruence.
  - split; [cbn; lia|]. exists 2. reflexivity.
Qed.
Lemma ex_tune_ok l1 l2 : - 2 ^ 31 <= l2 < 2 ^ 31 -> tuning_ok (ex_tune l1 l2).
Proof. intros H. split; [exact H|]. cbn. discriminate. Qed.

Lemma ex_config_ok m fmt l1 l2 hw mnt : fmt = ex_fmt1 \/ fmt = ex_fmt2 ->
  - 2 ^ 31 <= l2 < 2 ^ 31 -> 1 <= hw <= 1000 -> 0 <= mnt <= 1000 ->
  gemm_config_ok m (ReferenceKernel m fmt) (ex_tune l1 l2) hw mnt ex_result.
Proof.
  intros Hf Hl Hh Hm.
  assert (Hok : kernel_fmt_ok fmt) by (destruct Hf as [->| ->]; [apply ex_fmt1_ok|apply ex_fmt2_ok]).
  split; [exact Hok|]. split.
  - apply correct_usable, reference_kernel_correct; [exact Hok| |]; destruct Hf as [->| ->]; reflexivity.
  - split; [apply generic_packs; [exact Hok|reflexivity]|]. split; [apply ex_tune_ok; exact Hl|]. right. cbn [ex_result mm_rows mm_cols]. change (Z.max 2 4) with 4.
    cbv zeta.
    change (4 / 16 + 1) with 1.
    assert (E : 1 <= (if mnt =? 0 then hw else mnt)) by (destruct (mnt =? 0) eqn:?; lia).
    rewrite (Z.min_r _ 1) by exact E.
    destruct Hf as [->| ->]; cbn [k_fmt ReferenceKernel];
      [change (kRows ex_fmt1) with 4|change (kRows ex_fmt2) with 4]; lia.
Qed.

Lemma ex_problem m K : 1 <= kf_reg (k_fmt K) <= 32 -> takes_uint8 (k_fmt K) ->
  gemm_problem m K (op_mem ex_lhs) (op_map ex_lhs) (op_mem ex_rhs) (op_map ex_rhs) ex_result ex_lo ex_ro ex_pipe
    exL exR exLO exRO ex_out.
Proof.
  intros Hk [U1 U2]. constructor; try reflexivity.
  - cbn. lia.
  - apply holds_uint8_lhs; [exact U1|]. apply gap_holds; [lia|]. intros r c. unfold exL. lia.
  - apply holds_uint8_rhs; [exact U2|]. apply gap_holds; [lia|]. intros r c. unfold exR. lia.
  - split; [reflexivity|]. split; [cbn; lia|]. intros i Hi. cbn in Hi.
    assert (i = 0 \/ i = 1) as [->| ->] by lia; reflexivity.
  - split; [exact I|]. split; [cbn; lia|]. intros i Hi. reflexivity.
  - right. rewrite (in_min_uint8 _ U1). exists 255, 255. split; [lia|]. split; [lia|]. cbn [ex_result ex_lhs op_map mm_rows mm_cols]. split; [lia|]. unfold exLO, exRO.
    split; [|lia]. intros r Hr. destruct (r =? 0); lia.
  - intros r c Hr Hc. cbn in Hr, Hc.
    assert (r = 0 \/ r = 1) as [->| ->] by lia; assert (c = 0 \/ c = 1 \/ c = 2 \/ c = 3) as [->|[->|[->| ->]]] by lia;
      destruct m; vm_compute; reflexivity.
  - destruct (k_out K) as [T|]; [|exact I]. split; [discriminate|]. split; [intros r _; unfold i32, exLO; destruct (r =? 0); lia|].
    split; [unfold i32, exRO; lia|]. intros r c Hr Hc. cbn in Hr, Hc.
    split; [|intros y _; split; [unfold stage_safe, i32; lia|intros z _; split; [exact I|intros; exact I]]].
    intros x E. assert (c = 0 \/ c = 1 \/ c = 2 \/ c = 3) as [->|[->|[->| ->]]] by lia; vm_compute in E; injection E as <-; unfold i32; lia.
  - rewrite !in_min_uint8 by assumption. reflexivity.
Qed.
Lemma ex_valid : valid_view ex_before ex_result.
Proof.
  split; [|cbn; lia]. intros r c Hr Hc. cbn in Hr, Hc. unfold entry_addr, ex_before, ex_result. cbn [mm_order mm_base mm_stride].
  exists 222. replace ((0 <=? 10 + r + c * 3) && (10 + r + c * 3 <? 40)) with true by lia. reflexivity.
Qed.
Lemma ex_only : only_view (op_mem ex_lhs) (op_map ex_lhs) /\ only_view (op_mem ex_rhs) (op_map ex_rhs) /\
  only_vec ex_lo /\ only_vec ex_ro /\ Forall only_stage ex_pipe.
Proof.
  assert (Hv : forall l a, vm_mem (ex_vec l) a <> None -> 0 <= a < Z.of_nat (length l)).
  { intros l a. unfold ex_vec. cbn. destruct (0 <=? a) eqn:E; [|congruence]. intros H. apply nth_error_Some in H. lia. }
  split; [apply gap_only; lia|]. split; [apply gap_only; lia|]. split; [intros a Ha; apply Hv in Ha; exact Ha|].
  split; [exact I|]. constructor; [intros a Ha; apply Hv in Ha; exact Ha|]. constructor; [exact I|]. constructor; [exact I|]. constructor.
Qed.

(* an instance that is really split between threads: 32x4096 times 4096x1 *)
Definition big_lhs : operand := mk_operand (fun a => Some (a mod 7)) (mk_map 0 32 4096 4096 RowMajor).
Definition big_rhs : operand := mk_operand (fun a => Some (a mod 5)) (mk_map 0 4096 1 4096 ColMajor).
Definition big_result : matrix_map := mk_map 0 32 1 32 ColMajor.
Definition big_out (r c : Z) : Z :=
  Z.max 0 (Z.min 255 (wrapS 32 (offset_product (fun r d => (r * 4096 + d) mod 7) (fun d c => (d + c * 4096) mod 5)
    (fun _ => -3) (fun _ => -2) 4096 r c))).
Lemma big_config_ok m : gemm_config_ok m (ReferenceKernel m ex_fmt1) (ex_tune 6400 64000) 4 0 big_result.
Proof.
  destruct (ex_config_ok m ex_fmt1 6400 64000 4 1) as (A & B & P & C & _); try lia; [left; reflexivity|].
  split; [exact A|]. split; [exact B|]. split; [exact P|]. split; [exact C|]. right. cbn [big_result mm_rows mm_cols]. change (Z.max 32 1) with 32.
  cbv zeta. change (0 =? 0) with true. cbv iota. change (32 / 16 + 1) with 3. change (kRows (k_fmt (ReferenceKernel m ex_fmt1))) with 4. lia.
Qed.
Lemma big_problem m : gemm_problem m (ReferenceKernel m ex_fmt1) (op_mem big_lhs) (op_map big_lhs) (op_mem big_rhs) (op_map big_rhs) big_result
  (VDup VCol (-3) 32) (VDup VRow (-2) 1) [SSatU8]
  (fun r d => (r * 4096 + d) mod 7) (fun d c => (d + c * 4096) mod 5) (fun _ => -3) (fun _ => -2) big_out.
Proof.
  constructor; cbn [big_result big_lhs big_rhs op_map op_mem mm_rows mm_cols].
  - reflexivity.
  - reflexivity.
  - reflexivity.
  - lia.
  - apply holds_uint8_lhs; [discriminate|]. intros r c Hr Hc. unfold entry_addr. cbn [mm_order mm_base mm_stride]. rewrite Z.add_0_l. split; [reflexivity|].
    pose proof (Z.mod_pos_bound (r * 4096 + c) 7 ltac:(lia)). lia.
  - apply holds_uint8_rhs; [discriminate|]. intros r c Hr Hc. unfold entry_addr. cbn [mm_order mm_base mm_stride]. rewrite Z.add_0_l. split; [reflexivity|].
    pose proof (Z.mod_pos_bound (r + c * 4096) 5 ltac:(lia)). lia.
  - split; [exact I|]. split; [cbn [vec_size]; lia|]. intros; reflexivity.
  - split; [exact I|]. split; [cbn [vec_size]; lia|]. intros; reflexivity.
  - right. exists 255, 255. change (kf_reg (k_fmt (ReferenceKernel m ex_fmt1))) with 4. change (in_min (kf_lhs (k_fmt (ReferenceKernel m ex_fmt1)))) with 0. repeat split; intros; cbv beta; try lia.
  - intros r c _ _. cbn [pipe_at stage_at bind]. unfold big_out. apply f_equal. exact eq_refl.
  - exact I.
  - reflexivity.
Qed.
Lemma big_valid : valid_view (fun a => if (0 <=? a) && (a <? 32) then Some 0 else None) big_result.
Proof.
  split; [|cbn; lia]. intros r c Hr Hc. cbn in Hr, Hc. unfold entry_addr, big_result. cbn [mm_order mm_base mm_stride].
  exists 0. replace ((0 <=? 0 + r + c * 32) && (0 + r + c * 32 <? 32)) with true by lia. reflexivity.
Qed.
