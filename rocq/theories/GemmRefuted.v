(* GemmRefuted.v: witnesses for the negative statements of Props_Gemm.v *)
From Verif Require Import Base BaseLemmas CommonModel PackModel GemmSpec FixedPointModel FixedPointSpec ComputeModel KernelSpec
  OutputModel OutputSpec UnpackModel GemmModel GemmContract GemmExample.

Lemma interleavings_example : interleaving [[1; 2]; [3]] [1; 3; 2] /\ interleaving [[1; 2]; [3]] [3; 1; 2] /\
  ~ interleaving [[1; 2]; [3]] [2; 1; 3].
Proof.
  assert (Hd : interleaving [[]; []] (@nil Z)) by (apply il_done; intros l [<-|[<-|[]]]; reflexivity).
  split; [|split].
  - apply (il_step [] 1 [2] [[3]]). apply (il_step [[2]] 3 [] []). apply (il_step [] 2 [] [[]]). exact Hd.
  - apply (il_step [[1; 2]] 3 [] []). apply (il_step [] 1 [2] [[]]). apply (il_step [] 2 [] [[]]). exact Hd.
  - intros H. inversion H as [|ls1 a l ls2 tr Hi E]. destruct ls1 as [|x [|y ls1]]; cbn in E.
    + congruence.
    + congruence.
    + destruct ls1; discriminate.
Qed.

Lemma negative_threads_refuted : exists mnt, HowManyThreads Trap 4 8 mnt 100 64 64 = None.
Proof. exists (-1). vm_compute. reflexivity. Qed.
Lemma huge_product_refuted : exists rows cols depth,
  0 < rows < 2 ^ 31 /\ 0 < cols < 2 ^ 31 /\ 0 < depth < 2 ^ 31 /\
  HowManyThreads Trap 4 8 0 rows cols depth = Some 1 /\ 8 * (64 * 1024) <= rows * cols * depth.
Proof. exists (2 ^ 16), (2 ^ 16), (2 ^ 15). repeat split; vm_compute; try reflexivity; discriminate. Qed.
Lemma large_split_refuted : exists rows task_count,
  0 < rows < 2 ^ 31 /\ 0 < task_count <= 64 /\
  HowManyThreads Trap 4 64 0 rows 1 1 = Some task_count /\
  row_ranges Trap 4 rows task_count = None /\
  exists ranges s n, row_ranges Wrap 4 rows task_count = Some ranges /\ In (s, n) ranges /\ n < 0.
Proof.
  exists 50000000, 64. split; [lia|]. split; [lia|]. split; [vm_compute; reflexivity|]. split; [vm_compute; reflexivity|].
  destruct (row_ranges Wrap 4 50000000 64) as [l|] eqn:E; [|vm_compute in E; discriminate].
  destruct (find (fun q => snd q <? 0) l) as [[s n]|] eqn:F.
  - exists l, s, n. split; [reflexivity|]. apply find_some in F as [F1 F2]. split; [exact F1|]. cbn in F2. lia.
  - exfalso. revert E F. vm_compute. intros E. injection E as <-. discriminate.
Qed.
Lemma empty_sum_refuted : exists lhs rhs result p before phases trace after,
  mm_rows (op_map lhs) = mm_rows result /\ mm_cols (op_map rhs) = mm_cols result /\
  mm_cols (op_map lhs) = 0 /\ mm_rows (op_map rhs) = 0 /\ valid_view before result /\
  DispatchGemmShape Trap (ReferenceKernel Trap ex_fmt1) (ex_tune 64 64) 4 3 (ex_scratch 1) (fun c n => ex_scratch (c + n))
    lhs rhs result (VDup VCol 0 5) (VDup VRow 0 7) p = Some phases /\
  execution phases trace /\ perform trace before = Some after /\
  exists r c, 0 <= r < mm_rows result /\ 0 <= c < mm_cols result /\
    after (entry_addr result r c) <> pipe_at Trap p r c 0.
Proof.
  exists (mk_operand (fun _ => None) (mk_map 0 5 0 0 RowMajor)), (mk_operand (fun _ => None) (mk_map 0 0 7 0 RowMajor)),
    (mk_map 0 5 7 7 RowMajor), [SSatU8], (fun _ => Some 222), [], [], (fun _ => Some 222).
  do 4 (split; [reflexivity|]). split.
  { split; [|cbn; lia]. intros. eauto. }
  split; [vm_compute; reflexivity|]. split; [constructor|]. split; [reflexivity|].
  exists 0, 0. split; [cbn; lia|]. split; [cbn; lia|]. vm_compute. discriminate.
Qed.
Lemma stores_once_example : stores_once (mk_map 10 1 2 1 ColMajor) (fun r c => r + 5 * c) [(11, 5); (10, 0)] /\
  ~ stores_once (mk_map 10 1 2 1 ColMajor) (fun r c => r + 5 * c) [(11, 5); (10, 0); (10, 0)].
Proof.
  split.
  - exists [(0, 1); (0, 0)]. split; [reflexivity|]. split.
    + constructor; [intros [E|[]]; discriminate|]. constructor; [intros []|]. constructor.
    + intros r c. cbn [mm_rows mm_cols]. split.
      * intros [E|[E|[]]]; injection E as <- <-; lia.
      * intros H. assert (r = 0 /\ (c = 0 \/ c = 1)) as [-> [->| ->]] by lia; cbn; auto.
  - intros (vis & E & N & H). assert (Hl : length vis = 3%nat) by (apply (f_equal (@length _)) in E; rewrite map_length in E; cbn in E; congruence).
    assert (Hi : incl vis [(0, 0); (0, 1)]).
    { intros [r c] Hin. apply H in Hin. cbn in Hin. assert (r = 0 /\ (c = 0 \/ c = 1)) as [-> [->| ->]] by lia; cbn; auto. }
    pose proof (NoDup_incl_length N Hi) as Hle. cbn in Hle. lia.
Qed.
Lemma large_offsets_refuted : exists lo ro,
  fits 32 lo /\ fits 32 ro /\
  DispatchGemmShape Trap (ReferenceKernel Trap ex_fmt1) (ex_tune 64 64) 4 3 (ex_scratch 1) (fun c n => ex_scratch (c + n))
    ex_lhs ex_rhs ex_result (VDup VCol lo 2) (VDup VRow ro 4) [SSatU8] = None.
Proof.
  exists (-100000), (-100000). unfold fits. split; [lia|]. split; [lia|]. vm_compute. reflexivity.
Qed.
