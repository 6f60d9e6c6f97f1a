(* MetaRefuted.v: inputs on which the Meta GEMM or its fast path fails. *)
From Coq Require Import Permutation SpecFloat.
From Verif Require Import Base BaseLemmas CommonModel FixedPointSpec KernelSpec OutputModel OutputProofs GemmContract EightBitModel EightBitSpec
  PackModel ComputeModel GemmModel EightBitProofs2 EightBitProofs4 MetaModel MetaSpec MetaProofs MetaProofs2 MetaProofs3 MetaProofs4 MetaProofs5 MetaProofs6.

(* scratch of at most threads * estimate bytes is used *)
Section Total.
Context {A : Type} (estimate : gemm_params A -> Z) (p : gemm_params A).
Lemma prepare_all_length l : forall s, length (prepare_all estimate p s l) = length l.
Proof. induction l as [|r t IH]; intros s; [reflexivity|]. cbn [prepare_all length]. rewrite IH. reflexivity. Qed.
Lemma scratch_total_bound l E : (forall q, In q l -> estimate q <= E) -> scratch_total estimate l <= Z.of_nat (length l) * E.
Proof.
  induction l as [|q t IH]; intros H; [cbn; lia|]. cbn [scratch_total fold_right length]. 
  pose proof (H q (or_introl eq_refl)). pose proof (IH (fun r Hr => H r (or_intror Hr))) as HI. unfold scratch_total in HI. lia.
Qed.
Lemma mt_scratch_bound mode hw mnt : 1 <= p_m p -> 1 <= p_n p -> 0 <= estimate p ->
  (forall q, p_m q <= p_m p -> p_n q <= p_n p -> p_left q = p_left p -> p_right q = p_right p -> 0 <= p_m q -> 0 <= p_n q -> estimate q <= estimate p) ->
  mt_scratch p estimate mode hw mnt <= Z.max 1 (ResolveMaxThreads hw mnt) * estimate p.
Proof.
  intros Hm Hn He H. unfold mt_scratch. destruct (PrepareGemmTasks mode estimate hw mnt p) as [[l|]|] eqn:E; [|nia|nia].
  unfold PrepareGemmTasks in E. destruct (real_tasks mode (ResolveMaxThreads hw mnt) (p_m p) (p_n p) (p_k p)) as [T|] eqn:ET; [|discriminate].
  cbn [bind] in E. destruct (T =? 1) eqn:E1; [discriminate|]. injection E as <-.
  assert (EP : PrepareTasks mode (ResolveMaxThreads hw mnt) (p_m p) (p_n p) (p_k p) = Some (split_tasks T (p_m p) (p_n p))) by (unfold PrepareTasks; rewrite ET; reflexivity).
  destruct (PrepareTasks_partition _ _ _ _ _ _ Hm Hn EP) as ((HR & _) & HL & _).
  assert (HB : scratch_total estimate (prepare_all estimate p (p_scratch p) (split_tasks T (p_m p) (p_n p))) <=
    Z.of_nat (length (prepare_all estimate p (p_scratch p) (split_tasks T (p_m p) (p_n p)))) * estimate p).
  { apply scratch_total_bound. intros q Hq. revert Hq HR. generalize (split_tasks T (p_m p) (p_n p)) (p_scratch p). clear - H.
    intros l. induction l as [|r t IH]; intros s [] HR; [|eapply IH; [eassumption|intros; apply HR; right; assumption]].
    subst q. pose proof (HR r (or_introl eq_refl)). unfold PrepareGemmTask, UpdateCacheFriendlyTask. 
    apply H; cbn [p_m p_n p_left p_right]; try reflexivity; lia. }
  rewrite prepare_all_length in HB. nia.
Qed.
End Total.
Lemma AlignTo_mono a v w : 0 < a -> 0 <= v <= w -> AlignTo a v <= AlignTo a w.
Proof. intros H1 H2. rewrite !AlignTo_div by lia. apply Z.mul_le_mono_nonneg_r; [lia|]. apply Z.div_le_mono; lia. Qed.
Lemma rhs_estimate_mono {A} (p q : gemm_params A) m n : kernel_exists m n = true -> 1 <= st_count (p_left p) -> 1 <= st_count (p_right p) ->
  p_n q <= p_n p -> p_left q = p_left p -> p_right q = p_right p -> 0 <= p_n q -> 
  PackRHS_EstimateScratchSize q m n 8 <= PackRHS_EstimateScratchSize p m n 8.
Proof.
  intros He Hc Hc' H E1 E2 H0. pose proof (kernel_exists_range m n He) as Hr. unfold PackRHS_EstimateScratchSize. rewrite E1, E2.
  pose proof (PackedStride_pos m (p_left p) ltac:(lia) ltac:(lia)). pose proof (PackedStride_pos n (p_right p) ltac:(lia) ltac:(lia)).
  rewrite !Scratch_PackedStride, !Z.quot_div_nonneg by lia.
  assert ((p_n q + n - 1) / n <= (p_n p + n - 1) / n) by (apply Z.div_le_mono; lia).
  assert (0 <= (p_n q + n - 1) / n) by (apply Z.div_pos; lia). apply AlignTo_mono; [lia|nia].
Qed.
Lemma lhs_estimate_mono {A} (p q : gemm_params A) m n : kernel_exists m n = true -> 1 <= st_count (p_left p) -> 1 <= st_count (p_right p) ->
  p_m q <= p_m p -> p_left q = p_left p -> p_right q = p_right p -> 0 <= p_m q -> 
  PackLHS_EstimateScratchSize q m n 8 <= PackLHS_EstimateScratchSize p m n 8.
Proof.
  intros He Hc Hc' H E1 E2 H0. pose proof (kernel_exists_range m n He) as Hr. unfold PackLHS_EstimateScratchSize. rewrite E1, E2.
  pose proof (PackedStride_pos m (p_left p) ltac:(lia) ltac:(lia)). pose proof (PackedStride_pos n (p_right p) ltac:(lia) ltac:(lia)).
  rewrite !Scratch_PackedStride, !Z.quot_div_nonneg by lia.
  assert ((p_m q + m - 1) / m <= (p_m p + m - 1) / m) by (apply Z.div_le_mono; lia).
  assert (0 <= (p_m q + m - 1) / m) by (apply Z.div_pos; lia). apply AlignTo_mono; [lia|nia].
Qed.
Lemma MultiThreadGemm_RHS {A} (p : gemm_params A) mode m n hw mnt f g sc : kernel_exists m n = true -> params_ok p f g -> 1 <= p_m p -> 1 <= p_n p ->
  mode = Wrap \/ p_m p * p_n p * p_k p <= 2 ^ 31 - 1 ->
  alloc sc (p_scratch p) (p_scratch p + Z.max 1 (ResolveMaxThreads hw mnt) * PackRHS_EstimateScratchSize p m n 8) ->
  exists logs, MultiThreadGemm mode PackRHS (fun q => PackRHS_EstimateScratchSize q m n 8) m n 8 hw mnt p sc = Some [logs] /\
    1 <= Z.of_nat (length logs) <= Z.max 1 (ResolveMaxThreads hw mnt) /\
    all_stores [logs] (p_m p) (p_n p) (entry_address p) (entry_value p f g).
Proof.
  intros He Hp Hm Hn Hmode Ha. set (est := fun q : gemm_params A => PackRHS_EstimateScratchSize q m n 8).
  destruct (MultiThreadGemm_ok p est mode PackRHS m n hw mnt f g sc Hp Hm Hn) as (logs & E & HL & HX).
  - destruct Hmode as [H|H]; [left; exact H|right]. split; [|exact H]. pose proof (po_k _ _ _ Hp). nia.
  - intros q f' g' Hq Hqm Hqn. destruct (rhs_estimate q m n f' g' He Hq) as [H1 H2]. split; [unfold est; lia|].
    eapply computes_more; [apply MetaGemm_PackRHS; [exact He|exact Hq]|exact H2].
  - eapply alloc_sub; [exact Ha|lia|]. apply Z.add_le_mono_l. apply (mt_scratch_bound est p mode hw mnt); [exact Hm|exact Hn| |].
    + destruct (rhs_estimate p m n f g He Hp). unfold est. lia.
    + destruct Hp. intros. apply rhs_estimate_mono; try assumption; lia.
  - exists logs. split; [exact E|]. split; [exact HL|]. split; [eexists; apply flat_one|exact HX].
Qed.
Lemma MultiThreadGemm_LHS {A} (p : gemm_params A) mode m n hw mnt f g sc : kernel_exists m n = true -> params_ok p f g -> 1 <= p_m p -> 1 <= p_n p ->
  mode = Wrap \/ p_m p * p_n p * p_k p <= 2 ^ 31 - 1 ->
  alloc sc (p_scratch p) (p_scratch p + Z.max 1 (ResolveMaxThreads hw mnt) * PackLHS_EstimateScratchSize p m n 8) ->
  exists logs, MultiThreadGemm mode PackLHS (fun q => PackLHS_EstimateScratchSize q m n 8) m n 8 hw mnt p sc = Some [logs] /\
    1 <= Z.of_nat (length logs) <= Z.max 1 (ResolveMaxThreads hw mnt) /\
    all_stores [logs] (p_m p) (p_n p) (entry_address p) (entry_value p f g).
Proof.
  intros He Hp Hm Hn Hmode Ha. set (est := fun q : gemm_params A => PackLHS_EstimateScratchSize q m n 8).
  destruct (MultiThreadGemm_ok p est mode PackLHS m n hw mnt f g sc Hp Hm Hn) as (logs & E & HL & HX).
  - destruct Hmode as [H|H]; [left; exact H|right]. split; [|exact H]. pose proof (po_k _ _ _ Hp). nia.
  - intros q f' g' Hq Hqm Hqn. destruct (lhs_estimate q m n f' g' He Hq) as [H1 H2]. split; [unfold est; lia|].
    eapply computes_more; [apply MetaGemm_PackLHS; [exact He|exact Hq]|exact H2].
  - eapply alloc_sub; [exact Ha|lia|]. apply Z.add_le_mono_l. apply (mt_scratch_bound est p mode hw mnt); [exact Hm|exact Hn| |].
    + destruct (lhs_estimate p m n f g He Hp). unfold est. lia.
    + destruct Hp. intros. apply lhs_estimate_mono; try assumption; lia.
  - exists logs. split; [exact E|]. split; [exact HL|]. split; [eexists; apply flat_one|exact HX].
Qed.
(* the scratch areas of the tasks of PackRHS/PackLHS *)
Lemma gemm_task_areas {A} (estimate : gemm_params A -> Z) mode hw mnt (p : gemm_params A) l : 1 <= p_m p -> 1 <= p_n p ->
  (forall q, 0 <= p_m q -> 0 <= p_n q -> p_left q = p_left p -> p_right q = p_right p -> 0 <= estimate q) ->
  PrepareGemmTasks mode estimate hw mnt p = Some (Some l) ->
  forall i j q r, (i < j)%nat -> nth_error l i = Some q -> nth_error l j = Some r ->
    p_scratch p <= p_scratch q /\ p_scratch q + estimate q <= p_scratch r.
Proof.
  intros Hm Hn H E. unfold PrepareGemmTasks in E.
  destruct (real_tasks mode (ResolveMaxThreads hw mnt) (p_m p) (p_n p) (p_k p)) as [T|] eqn:ET; [|discriminate]. cbn [bind] in E.
  destruct (T =? 1); [discriminate|]. injection E as <-.
  assert (EP : PrepareTasks mode (ResolveMaxThreads hw mnt) (p_m p) (p_n p) (p_k p) = Some (split_tasks T (p_m p) (p_n p))) by (unfold PrepareTasks; rewrite ET; reflexivity).
  destruct (PrepareTasks_partition _ _ _ _ _ _ Hm Hn EP) as ((HR & _) & _).
  destruct (prepare_all_areas p estimate (split_tasks T (p_m p) (p_n p)) (p_scratch p)) as [A1 A2].
  { intros q Hq. revert Hq HR. generalize (split_tasks T (p_m p) (p_n p)) (p_scratch p). clear - H.
    intros l. induction l as [|r t IH]; intros s [] HR; [|eapply IH; [eassumption|intros; apply HR; right; assumption]].
    subst q. pose proof (HR r (or_introl eq_refl)). unfold PrepareGemmTask, UpdateCacheFriendlyTask. 
    apply H; cbn [p_m p_n p_left p_right]; try reflexivity; lia. }
  intros i j q r Hij Hi Hj. split; [exact (proj1 (A1 i q Hi))|]. exact (A2 i j q r Hij Hi Hj).
Qed.

(* ------------------------------------------------------------------ *)
(* The legacy entry points give each thread 1 MB of scratch whatever n is. *)
Lemma gemm_strided_needs {A} mode (kd : kind A) lo ro scratch lhs rhs m n k result rs st st' : 0 <= m -> 0 <= n -> 0 <= k ->
  gemm_strided mode kd lo ro scratch lhs rhs m n k result rs st = Some st' ->
  forall i, 0 <= i < n / 4 -> fst st (scratch + PackedStride 2 8 (mk_stream k k ro 0) + i * PackedStride 4 8 (mk_stream k k lo 0)) <> None.
Proof.
  intros Hm Hn Hk E. unfold gemm_strided, legacy_params in E.
  destruct (norm mode 32 (k * lo)) as [kl|]; [|discriminate]. cbn [bind] in E. destruct (norm mode 32 (kl * ro)) as [klr|]; [|discriminate]. cbn [bind] in E.
  destruct (norm mode 32 (kd_add kd + klr)) as [add|]; [|discriminate]. cbn [bind] in E. destruct (kd_fin kd) as [fin|]; [|discriminate]. cbn [bind] in E.
  apply MetaGemm_PackRHS_needs in E; [|lia|lia|exact Hm|exact Hn|exact Hk]. destruct E as (_ & H & _). intros i Hi. exact (H i Hi).
Qed.

Definition long_args : args := mk_args true false true 2 50000 9 (0%nat, 0) 0 9 (0%nat, 0) 0 9 (1%nat, 0) 50000 A8B8.
Definition zeros : memories := mk_memories (fun _ _ => Some 0) (fun _ _ => None).
Lemma long_fails mode : MetaGemmFastpath mode (q8_kind 0 1 1) 1 1 0 (fun _ => 0) (mk_bs 0 (fun _ => None)) long_args (bytes zeros 0) (bytes zeros 0) = None.
Proof.
  destruct (MetaGemmFastpath _ _ _ _ _ _ _ _ _ _) eqn:E; [exfalso|reflexivity]. unfold MetaGemmFastpath in E.
  replace (gemm_scratch mode 1 1) with (Some 1048576) in E by (destruct mode; reflexivity). cbn [bind] in E.
  destruct (AssureBytes mode 1048576 0 (fun _ => 0) (mk_bs 0 (fun _ => None))) as [s|] eqn:Es; [|discriminate]. cbn [bind] in E.
  assert (Hs : bs_mem s 1199968 = None).
  { assert (H : option_map (fun s => bs_mem s 1199968) (AssureBytes mode 1048576 0 (fun _ => 0) (mk_bs 0 (fun _ => None))) = Some None) by (destruct mode; vm_compute; reflexivity).
    rewrite Es in H. injection H as H. exact H. }
  unfold long_args in E. cbn [x_tc x_ldc x_m x_n x_k x_aoff x_boff x_a x_b x_c fst snd] in E.
  replace (IsRowMajorOrVector true 50000 2 50000) with true in E by reflexivity.
  unfold multi_thread_gemm in E. replace (2 =? 1) with false in E by reflexivity. replace (50000 =? 1) with false in E by reflexivity.
  replace (ResolveMaxThreads 1 1 =? 1) with true in E by reflexivity. cbn [gemm_operation op_execute] in E. unfold CacheFriendlyMatrixMatrix in E.
  replace (cache_chunks mode 50000 9) with (Some [(0, 50000)]) in E by (destruct mode; reflexivity). cbn [bind run_list fst snd] in E.
  match type of E with context [gemm_strided ?a ?b ?c ?d ?e ?f ?g ?h ?i ?j ?k ?l ?m] => destruct (gemm_strided a b c d e f g h i j k l m) eqn:Eg; [|discriminate] end.
  apply gemm_strided_needs with (i := 12499) in Eg; [|lia|lia|lia|split; [lia|reflexivity]]. apply Eg. cbn [fst]. exact Hs.
Qed.

(* the cache friendly executor and its EstimateScratchSize, which is cache_size *)
Definition odd_params : gemm_params Z :=
  mk_params 2 867 2048 (mk_source (fun _ => Some 0) 0) (mk_source (fun _ => Some 0) 0) 0 0 (mk_stream 2048 2048 0 0) (mk_stream 2048 2048 0 0)
    (fun a => a) 2048 4 (4 * 867).
Lemma odd_params_ok : params_ok odd_params (fun _ _ => 0) (fun _ _ => 0).
Proof. split; cbn; try lia; intros i d _ _; cbn; split; (reflexivity || lia). Qed.
Lemma odd_fails sc log : (forall a, 262144 <= a -> sc a = None) -> MetaGemm (PackRHSCacheFriendly 262144) 2 4 8 odd_params (sc, log) = None.
Proof.
  intros Ho. destruct (MetaGemm _ _ _ _ _ _) as [st'|] eqn:E; [exfalso|reflexivity]. rewrite MetaGemm_eq in E by (cbn; lia).
  unfold PackRHSCacheFriendly in E.
  replace (CalculateCacheFriendlyTasksCount 262144 (PackedStride 2 8 (p_left odd_params)) (PackedStride 4 8 (p_right odd_params)) (p_n odd_params) 4) with (Some 7) in E by reflexivity.
  cbn [bind] in E. replace (7 =? 1) with false in E by reflexivity. replace (7 =? 0) with false in E by reflexivity. cbn [negb guard bind] in E.
  apply (run_list_needs (fun a b : state Z => dom (fst a) (fst b))) in E.
  - destruct E as [_ H]. destruct (H (738, 129)) as (s0 & s1 & HD & E).
    { vm_compute. tauto. }
    apply MetaGemm_PackRHS_needs in E; [|lia|lia|cbn; lia|cbn; lia|cbn; lia]. destruct E as (_ & _ & E).
    apply (HD 267296); [exact (E eq_refl)|]. cbn [fst]. apply Ho. lia.
  - intros s. apply dom_refl.
  - intros a b c. apply dom_trans.
  - intros x s0 s1 Hin E1. apply MetaGemm_PackRHS_needs in E1; [exact (proj1 E1)|lia|lia|cbn; lia| |cbn; lia].
    apply (split_dim_partition 867 7 ltac:(lia)) in Hin. cbn [UpdateCacheFriendlyTask p_n]. lia.
Qed.

(* ------------------------------------------------------------------ *)
(* theorems about the fast path in the form of Props_Meta.v *)
Lemma fast_layout_iff x : CanHandleMetaFastpath x = true -> 1 <= x_m x -> 1 <= x_n x -> (vectors_contiguous x <-> fast_layout x).
Proof.
  intros HC Hm Hn. split.
  - intros HV. destruct (CanHandle_layout x HC HV) as (La & Lb & Lc). split; [exact La|]. split; [exact Lb|].
    destruct (IsRowMajorOrVector (x_tc x) (x_ldc x) (x_m x) (x_n x)); [left; exact Lc|right; exact Lc].
  - intros (La & Lb & Lc). destruct (CanHandle_inv x HC) as (_ & Hk & _ & _ & _). unfold a_pos, b_pos, c_pos, position in *.
    split; [|split; [|split]].
    + intros E. specialize (La 0 1 ltac:(lia) ltac:(lia)). destruct (x_ta x); [left; reflexivity|right; lia].
    + intros E. specialize (Lb 1 0 ltac:(lia) ltac:(lia)). destruct (x_tb x); [right; lia|left; reflexivity].
    + intros E. destruct (Z.eq_dec (x_n x) 1) as [E1|E1]; [right; right; exact E1|].
      assert (H : 0 <= 0 < x_m x /\ 0 <= 1 < x_n x) by lia. 
      destruct Lc as [Lc|Lc]; specialize (Lc 0 1 (proj1 H) (proj2 H)); destruct (x_tc x); (left; reflexivity) || (right; left; lia).
    + intros E. destruct (Z.eq_dec (x_m x) 1) as [E1|E1]; [right; right; exact E1|].
      assert (H : 0 <= 1 < x_m x /\ 0 <= 0 < x_n x) by lia. 
      destruct Lc as [Lc|Lc]; specialize (Lc 1 0 (proj1 H) (proj2 H)); destruct (x_tc x); (left; reflexivity) || (right; left; lia).
Qed.
Lemma writes_ext {V} x (out out' : Z -> Z -> V) before after : (forall r c, 0 <= r < x_m x -> 0 <= c < x_n x -> out r c = out' r c) ->
  writes x out before after -> writes x out' before after.
Proof. intros H [H1 H2]. split; [|exact H2]. intros r c Hr Hc. rewrite <- H by assumption. apply H1; assumption. Qed.
Lemma fast_u8 mode x M before off mult shift hw mnt addr junk s : CanHandleMetaFastpath x = true -> vectors_contiguous x ->
  fast_sizes mode (ResolveMaxThreads hw mnt) (x_aoff x) (x_boff x) off x -> fast_buffers x M before -> bytes_ok s ->
  1 <= shift <= 31 ->
  (forall r c, 0 <= r < x_m x -> 0 <= c < x_n x -> wrapS 32 ((product x M r c + off) * mult) + 2 ^ (shift - 1) <= 2 ^ 31 - 1) ->
  exists s' ph, MetaGemmFastpath mode (q8_kind off mult shift) hw mnt addr junk s x (bytes M (fst (x_a x))) (bytes M (fst (x_b x))) = Some (s', ph) /\
    bytes_ok s' /\ (exists trace, execution ph trace) /\
    forall trace, execution ph trace -> exists after, store_all trace before = Some after /\
      writes x (u8_result x M off mult shift) before after.
Proof.
  intros HC HV HS HB Hs Hsh Hr.
  destruct (fastpath_ok mode (q8_kind off mult shift) (q8_fin mult shift)) with (x := x) (M := M) (before := before) (hw := hw) (mnt := mnt) (addr := addr) (junk := junk) (s := s)
    as (s' & ph & E & Hs' & Hex & H); try assumption.
  - cbn [q8_kind kd_fin]. replace ((1 <=? shift) && (shift <=? 31)) with true by lia. reflexivity.
  - cbn. lia.
  - reflexivity.
  - exists s', ph. split; [exact E|]. split; [exact Hs'|]. split; [exact Hex|]. intros tr Htr. destruct (H tr Htr) as (after & Ea & W).
    exists after. split; [exact Ea|]. eapply writes_ext; [|exact W]. intros r c Hr1 Hc1. cbn [q8_kind kd_add]. cbn beta. unfold u8_result.
    rewrite q8_fin_eq; [rewrite wrapS_mul_l by lia; reflexivity|exact Hsh|]. rewrite wrapS_mul_l by lia. apply Hr; assumption.
Qed.
Lemma fast_f32 mode x M before scale hw mnt addr junk s : CanHandleMetaFastpath x = true -> vectors_contiguous x ->
  fast_sizes mode (ResolveMaxThreads hw mnt) (x_aoff x) (x_boff x) 0 x -> fast_buffers x M before -> bytes_ok s ->
  exists s' ph, MetaGemmFastpath mode (f_kind scale) hw mnt addr junk s x (bytes M (fst (x_a x))) (bytes M (fst (x_b x))) = Some (s', ph) /\
    bytes_ok s' /\ (exists trace, execution ph trace) /\
    forall trace, execution ph trace -> exists after, store_all trace before = Some after /\
      writes x (f32_result x M scale) before after.
Proof.
  intros HC HV HS HB Hs.
  destruct (fastpath_ok mode (f_kind scale) (fun a => fmul (float_of_int32 a) scale)) with (x := x) (M := M) (before := before) (hw := hw) (mnt := mnt) (addr := addr) (junk := junk) (s := s)
    as (s' & ph & E & Hs' & Hex & H); try assumption; try reflexivity.
  - cbn. lia.
  - exists s', ph. split; [exact E|]. split; [exact Hs'|]. split; [exact Hex|]. intros tr Htr. destruct (H tr Htr) as (after & Ea & W).
    exists after. split; [exact Ea|]. eapply writes_ext; [|exact W]. intros r c Hr1 Hc1. cbn [f_kind kd_add]. cbn beta. unfold f32_result.
    rewrite Z.add_0_r. reflexivity.
Qed.
Lemma call_fast_buffers e settings M x off mult shift : holds_bytes M -> call_ok e settings M (CallU8 x off mult shift) ->
  fast_buffers x M (bytes M (fst (x_c x))).
Proof.
  intros HB (HA & Hc & _). destruct HA as [_ _ _ Ha Hb _ _]. split; [|split; [|exact Hc]].
  - intros r d Hr Hd. destruct (bytes M (fst (x_a x)) (a_pos x r d)) as [v|] eqn:E; [|exfalso; exact (Ha r d Hr Hd E)].
    exists v. split; [reflexivity|]. exact (HB _ _ _ E).
  - intros d c Hd Hcc. destruct (bytes M (fst (x_b x)) (b_pos x d c)) as [v|] eqn:E; [|exfalso; exact (Hb d c Hd Hcc E)].
    exists v. split; [reflexivity|]. exact (HB _ _ _ E).
Qed.

(* Counterexamples.  ones_at: a memory of tens at even places and zeros between *)
Definition tens : memories := mk_memories (fun _ i => Some (if Z.even i then 10 else 0)) (fun _ _ => None).
(* a is one row of a column major matrix with two rows *)
Definition strided_row : args := mk_args false false true 1 1 8 (0%nat, 0) 0 2 (0%nat, 0) 1 8 (1%nat, 0) 1 A8B8.
Definition one_thread_buffer : byte_scratch := mk_bs 0 (fun _ => None).
Definition fast_phases (mode : ovf) (off mult shift threads : Z) (x : args) (M : memories) : option (phases Z) :=
  match MetaGemmFastpath mode (q8_kind off mult shift) 1 threads 0 (fun _ => 0) one_thread_buffer x (bytes M (fst (x_a x))) (bytes M (fst (x_b x))) with
  | Some (_, ph) => Some ph | None => None end.
Lemma strided_phases : fast_phases Trap 0 1 4 1 strided_row tens = Some [[[(0, 28)]]].
Proof. vm_compute. reflexivity. Qed.
(* c is one row of a column major matrix with two rows *)
Definition strided_result : args := mk_args true false false 1 2 8 (0%nat, 0) 0 8 (0%nat, 0) 0 8 (1%nat, 0) 2 A8B8.
Lemma strided_result_phases : fast_phases Trap 0 1 6 1 strided_result tens = Some [[[(0, 6); (1, 6)]]].
Proof. vm_compute. reflexivity. Qed.
Definition plain_one : args := mk_args true false true 1 1 8 (0%nat, 0) 0 8 (0%nat, 0) 0 8 (1%nat, 0) 1 A8B8.
Lemma rounding_phases : fast_phases Trap (2 ^ 31 - 1) 1 1 1 plain_one zeros = Some [[[(0, 0)]]].
Proof. vm_compute. reflexivity. Qed.
Lemma exec_one {A} (a : A) trace : execution [[[a]]] trace -> trace = [a].
Proof. intros H. apply one_phase in H. cbn in H. apply Permutation_sym, Permutation_length_1_inv in H. exact H. Qed.
Lemma tens_buffers x : fast_buffers x tens (bytes tens 1).
Proof.
  split; [|split].
  - intros r d _ _. eexists. split; [reflexivity|]. destruct (Z.even _); lia.
  - intros d c _ _. eexists. split; [reflexivity|]. destruct (Z.even _); lia.
  - intros r c _ _. discriminate.
Qed.
Lemma zeros_buffers x : fast_buffers x zeros (bytes zeros 1).
Proof.
  split; [|split].
  - intros r d _ _. eexists. split; [reflexivity|]. lia.
  - intros d c _ _. eexists. split; [reflexivity|]. lia.
  - intros r c _ _. discriminate.
Qed.
Lemma empty_ok : bytes_ok one_thread_buffer.
Proof. split; [cbn; lia|]. intros a Ha. cbn in Ha. lia. Qed.
Ltac small_sizes := vm_compute; intuition discriminate.
Lemma vectors_refuted : exists x M off mult shift ph,
  CanHandleMetaFastpath x = true /\ fast_sizes Trap 1 (x_aoff x) (x_boff x) off x /\ fast_buffers x M (bytes M 1) /\
  fast_phases Trap off mult shift 1 x M = Some ph /\
  forall trace after, execution ph trace -> store_all trace (bytes M 1) = Some after -> after (c_pos x 0 0) <> Some (u8_result x M off mult shift 0 0).
Proof.
  exists strided_row, tens, 0, 1, 4, [[[(0, 28)]]]. split; [reflexivity|]. split; [small_sizes|]. split; [apply tens_buffers|]. split; [exact strided_phases|].
  intros tr after Ht. apply exec_one in Ht. subst tr. intros E. cbn in E. injection E as <-. vm_compute. discriminate.
Qed.
Lemma result_vector_refuted : exists x M off mult shift ph i,
  CanHandleMetaFastpath x = true /\ fast_sizes Trap 1 (x_aoff x) (x_boff x) off x /\ fast_buffers x M (bytes M 1) /\
  fast_phases Trap off mult shift 1 x M = Some ph /\ (forall r c, 0 <= r < x_m x -> 0 <= c < x_n x -> i <> c_pos x r c) /\
  forall trace, execution ph trace -> In i (map fst trace).
Proof.
  exists strided_result, tens, 0, 1, 6, [[[(0, 6); (1, 6)]]], 1. split; [reflexivity|]. split; [small_sizes|]. split; [apply tens_buffers|].
  split; [exact strided_result_phases|]. split.
  - intros r c Hr Hc. cbn in *. lia.
  - intros tr Ht. apply one_phase in Ht. cbn in Ht. apply Permutation_sym in Ht.
    eapply Permutation_in; [apply Permutation_map; exact Ht|]. cbn. tauto.
Qed.
Lemma rounding_refuted : exists x M off mult shift ph,
  CanHandleMetaFastpath x = true /\ vectors_contiguous x /\ fast_sizes Trap 1 (x_aoff x) (x_boff x) off x /\ fast_buffers x M (bytes M 1) /\
  1 <= shift <= 31 /\ (forall r c, fits 32 ((product x M r c + off) * mult)) /\ 
  fast_phases Trap off mult shift 1 x M = Some ph /\
  forall trace after, execution ph trace -> store_all trace (bytes M 1) = Some after ->
    after (c_pos x 0 0) = Some 0 /\ u8_result x M off mult shift 0 0 = 255.
Proof.
  exists plain_one, zeros, (2 ^ 31 - 1), 1, 1, [[[(0, 0)]]]. split; [reflexivity|]. split; [cbn; unfold vectors_contiguous; cbn; tauto|]. split; [small_sizes|].
  split; [apply zeros_buffers|]. split; [lia|]. split; [intros r c; vm_compute; split; discriminate|]. split; [exact rounding_phases|].
  intros tr after Ht. apply exec_one in Ht. subst tr. intros E. cbn in E. injection E as <-. split; vm_compute; reflexivity.
Qed.
(* too many threads *)
Lemma threads_refuted : CanHandleMetaFastpath plain_one = true /\ vectors_contiguous plain_one /\ fast_buffers plain_one zeros (bytes zeros 1) /\
  forall mode, fast_phases mode 0 1 1 2048 plain_one zeros = None.
Proof.
  split; [reflexivity|]. split; [cbn; unfold vectors_contiguous; cbn; tauto|]. split; [apply zeros_buffers|]. intros []; vm_compute; reflexivity.
Qed.
Lemma shift_zero_refuted : CanHandleMetaFastpath plain_one = true /\ vectors_contiguous plain_one /\ fast_buffers plain_one zeros (bytes zeros 1) /\
  forall mode, fast_phases mode 0 1 0 1 plain_one zeros = None.
Proof.
  split; [reflexivity|]. split; [cbn; unfold vectors_contiguous; cbn; tauto|]. split; [apply zeros_buffers|]. intros []; vm_compute; reflexivity.
Qed.
Lemma long_refuted : CanHandleMetaFastpath long_args = true /\ vectors_contiguous long_args /\ fast_buffers long_args zeros (bytes zeros 1) /\
  x_m long_args * x_n long_args * x_k long_args <= 2 ^ 31 - 1 /\ forall mode, fast_phases mode 0 1 1 1 long_args zeros = None.
Proof.
  split; [reflexivity|]. split; [unfold vectors_contiguous; cbn; intuition lia|]. split; [apply zeros_buffers|]. split; [cbn; lia|].
  intros mode. unfold fast_phases, one_thread_buffer. change (bytes zeros (fst (x_a long_args))) with (bytes zeros 0). change (bytes zeros (fst (x_b long_args))) with (bytes zeros 0).
  rewrite long_fails. reflexivity.
Qed.
Lemma cache_refuted : exists (p : gemm_params Z) f g, params_ok p f g /\ 1 <= p_m p /\ 1 <= p_n p /\
  (forall sc log, (forall a, p_scratch p + 262144 <= a -> sc a = None) -> MetaGemm (PackRHSCacheFriendly 262144) 2 4 8 p (sc, log) = None).
Proof. exists odd_params, (fun _ _ => 0), (fun _ _ => 0). split; [exact odd_params_ok|]. split; [cbn; lia|]. split; [cbn; lia|]. exact odd_fails. Qed.

(* 16-bit sums *)
Definition all255 : mem := fun _ => Some 255.
Definition long_stream : stream := mk_stream 2057 2057 1 0.
Definition empty_scratch (size : Z) : mem := fun a => if (0 <=? a) && (a <? size) then Some 0 else None.
Lemma sums_refuted : match StreamPack 1 1 long_stream all255 0 0 (empty_scratch 2112) with
  | Some sc' => rd32 sc' (8 * 258) = Some (2057 * 255 - 65536) | None => False end.
Proof. vm_compute. reflexivity. Qed.
Lemma PrepareTasks_refuted : exists m n k, 1 <= m /\ 1 <= n /\ 1 <= k <= 2048 /\ m * n <= 2 ^ 31 - 1 /\ forall mt, PrepareTasks Trap mt m n k = None.
Proof. exists 1291, 1291, 1291. repeat (split; [lia|]). reflexivity. Qed.
(* fast path and general path *)
Lemma writes_unique {V} x (out : Z -> Z -> V) before after after' : writes x out before after -> writes x out before after' -> forall i, after i = after' i.
Proof.
  intros [A1 A2] [B1 B2] i. destruct (view_dec x i) as [(r & c & Hr & Hc & ->)|Hn]; [rewrite A1, B1 by assumption; reflexivity|].
  rewrite A2, B2 by exact Hn. reflexivity.
Qed.
Lemma fast_equals_general e (settings : Z -> Prop) M x off mult shift mnt mnt' hw sc scs addr junk s : env_ok e -> holds_bytes M ->
  call_ok e settings M (CallU8 x off mult shift) -> settings mnt ->
  CanHandleMetaFastpath x = true -> vectors_contiguous x -> fast_sizes (e_mode e) (ResolveMaxThreads hw mnt') (x_aoff x) (x_boff x) off x -> bytes_ok s ->
  1 <= shift -> (forall r c, 0 <= r < x_m x -> 0 <= c < x_n x -> wrapS 32 ((product x M r c + off) * mult) + 2 ^ (shift - 1) <= 2 ^ 31 - 1) ->
  exists general s' fast,
    EightBitIntGemm_u8 e mnt sc scs x (bytes M (fst (x_a x))) (bytes M (fst (x_b x))) off mult shift = Some general /\
    MetaGemmFastpath (e_mode e) (q8_kind off mult shift) hw mnt' addr junk s x (bytes M (fst (x_a x))) (bytes M (fst (x_b x))) = Some (s', fast) /\
    (exists t, execution general t) /\ (exists t, execution fast t) /\
    forall t t', execution general t -> execution fast t' ->
      exists after after', perform t (bytes M (fst (x_c x))) = Some after /\ store_all t' (bytes M (fst (x_c x))) = Some after' /\ forall i, after i = after' i.
Proof.
  intros He HB Hok Hmnt HC HV HS Hs Hsh Hr.
  destruct (eight_bit_layout e settings M x off mult shift mnt sc scs He HB Hok Hmnt) as (general & Eg & Hxg & Hg).
  assert (Hsh' : 1 <= shift <= 31) by (destruct Hok as (_ & _ & _ & _ & H & _); lia).
  destruct (fast_u8 (e_mode e) x M (bytes M (fst (x_c x))) off mult shift hw mnt' addr junk s HC HV HS (call_fast_buffers _ _ _ _ _ _ _ HB Hok) Hs Hsh' Hr)
    as (s' & fast & Ef & _ & Hxf & Hf).
  exists general, s', fast. split; [exact Eg|]. split; [exact Ef|]. split; [exact Hxg|]. split; [exact Hxf|].
  intros t t' Ht Ht'. destruct (Hg t Ht) as (_ & after & Ea & Wa). destruct (Hf t' Ht') as (after' & Ea' & Wa').
  exists after, after'. split; [exact Ea|]. split; [exact Ea'|].
  destruct (CanHandle_inv x HC) as (_ & Hk & _). destruct (x_k x =? 0) eqn:E0; [lia|]. eapply writes_unique; [exact Wa|exact Wa'].
Qed.
(* the int32 entry point *)
Lemma legacy_i32 mode hw mnt sc lhs rhs m n k lo ro result f g : 1 <= m -> 1 <= n -> 8 <= k <= 2048 ->
  m * k <= 2 ^ 31 - 1 -> n * k <= 2 ^ 31 - 1 -> 12 <= k \/ n * k <= 262144 ->
  mode = Wrap \/ m * n * k <= 2 ^ 31 - 1 /\ fits 32 (k * lo) /\ fits 32 (k * ro) /\ fits 32 (k * lo * ro) ->
  rows_in lhs k m k f -> rows_in rhs k n k g -> alloc sc 0 (Z.max 1 (ResolveMaxThreads hw mnt) * 1048576) ->
  exists ph, multi_thread_gemm mode i32_kind hw mnt sc lhs rhs m n k lo ro result = Some ph /\
    all_stores ph m n (fun i j => result + 4 * (i * n + j)) (fun i j => wrapS 32 (sumZ (fun d => (f i d + lo) * (g j d + ro)) 0 k)).
Proof.
  intros Hm Hn Hk Hmk Hnk Hfit Hmode RL RR Ha.
  destruct (multi_thread_gemm_ok mode i32_kind (fun a => a) eq_refl eq_refl hw mnt sc lhs rhs m n k lo ro result f g) as (ph & E & HP); try assumption.
  - destruct Hmode as [H|(_ & H1 & H2 & H3)]; [left; exact H|right]. cbn [i32_kind kd_add]. rewrite Z.add_0_l. auto.
  - destruct Hmode as [H|(_ & H1 & H2 & H3)]; [left; exact H|right]. cbn [i32_kind kd_add]. rewrite Z.add_0_l.
    replace (k * ro * lo) with (k * lo * ro) by ring. auto.
  - destruct Hmode as [H|H]; [left; exact H|right; exact (proj1 H)].
  - exists ph. split; [exact E|]. destruct HP as (logs & -> & H). split; [eexists; apply flat_one|]. intros tr Htr.
    destruct (H tr Htr) as (vis & Ev & N & HI). exists vis. split; [|split; assumption]. rewrite Ev. apply map_ext. intros q.
    unfold kvalue, dot. cbn [i32_kind kd_esz kd_add]. rewrite Z.add_0_r. reflexivity.
Qed.
Lemma cache_friendly_rhs {A} (p : gemm_params A) cache m n f g T : kernel_exists m n = true -> params_ok p f g -> 1 <= p_n p ->
  CalculateCacheFriendlyTasksCount cache (PackedStride m 8 (p_left p)) (PackedStride n 8 (p_right p)) (p_n p) n = Some T -> p_n p mod T <= 1 ->
  computes (MetaGemm (PackRHSCacheFriendly cache) m n 8 p) p cache f g.
Proof. intros He Hp Hn ET HT. eapply computes_more; [eapply RHSCacheFriendly_ok; eassumption|eapply RHSCacheFriendly_fits; eassumption]. Qed.
Lemma cache_friendly_lhs {A} (p : gemm_params A) cache m n f g T : kernel_exists m n = true -> params_ok p f g -> 1 <= p_m p ->
  CalculateCacheFriendlyTasksCount cache (PackedStride n 8 (p_right p)) (PackedStride m 8 (p_left p)) (p_m p) m = Some T -> p_m p mod T <= 1 ->
  computes (MetaGemm (PackLHSCacheFriendly cache) m n 8 p) p cache f g.
Proof. intros He Hp Hn ET HT. eapply computes_more; [eapply LHSCacheFriendly_ok; eassumption|eapply LHSCacheFriendly_fits; eassumption]. Qed.
Lemma pack_rhs_exact {A} (p : gemm_params A) m n f g : kernel_exists m n = true -> params_ok p f g -> computes (MetaGemm PackRHS m n 8 p) p (PackRHS_EstimateScratchSize p m n 8) f g.
Proof. intros He Hp. eapply computes_more; [apply MetaGemm_PackRHS; assumption|]. eapply rhs_estimate; eassumption. Qed.
Lemma pack_lhs_exact {A} (p : gemm_params A) m n f g : kernel_exists m n = true -> params_ok p f g -> computes (MetaGemm PackLHS m n 8 p) p (PackLHS_EstimateScratchSize p m n 8) f g.
Proof. intros He Hp. eapply computes_more; [apply MetaGemm_PackLHS; assumption|]. eapply lhs_estimate; eassumption. Qed.
Lemma pack_sums lanes s input src dst sc f : 1 <= lanes <= 8 -> 1 <= st_count s <= 2056 ->
  (forall l d, 0 <= l < lanes -> 0 <= d < st_count s -> input (src + l * st_stride s + d) = Some (f l d) /\ 0 <= f l d <= 255) ->
  alloc sc dst (dst + PackedStride lanes 8 s) ->
  exists sc', StreamPack lanes (st_count s mod 8) s input src dst sc = Some sc' /\ frame sc sc' dst (dst + PackedStride lanes 8 s) /\
    (forall l d, 0 <= l < lanes -> 0 <= d < st_count s -> sc' (dst + 8 * (lanes * (d / 8) + l) + d mod 8) = Some (f l d)) /\
    (forall l d, 0 <= l < lanes -> st_count s <= d < 8 * ((st_count s + 7) / 8) -> sc' (dst + 8 * (lanes * (d / 8) + l) + d mod 8) = Some 0) /\
    (forall l, 0 <= l < lanes -> rd32 sc' (dst + 8 * lanes * ((st_count s + 7) / 8) + 4 * l) = Some (wrapS 32 (sumZ (f l) 0 (st_count s) * st_mult s + st_add s))).
Proof.
  intros Hl Hc Hi Ha. destruct (StreamPack_ok lanes s input src dst sc f ltac:(lia) Hc Hi (fun _ => Ha)) as (sc' & E & F & (P1 & P2)).
  exists sc'. split; [exact E|]. split; [replace (lanes =? 0) with false in F by lia; exact F|]. unfold blocks_of in *.
  assert (HD : forall d, 8 * (d / 8) + d mod 8 = d) by (intros d; pose proof (Z.div_mod d 8); lia).
  assert (HM : forall d, 0 <= d mod 8 < 8) by (intros d; apply Z.mod_pos_bound; lia).
  split; [|split; [|exact P2]].
  - intros l d H1 H2. pose proof (HD d). pose proof (HM d). rewrite P1; [|exact H1| |exact (HM d)].
    + rewrite HD. unfold lane_byte. replace (d <? st_count s) with true by lia. reflexivity.
    + assert (D2 := Z.div_mod (st_count s + 7) 8 ltac:(lia)). assert (M2 := HM (st_count s + 7)). lia.
  - intros l d H1 H2. pose proof (HD d). pose proof (HM d). rewrite P1; [|exact H1|lia|exact (HM d)].
    rewrite HD. unfold lane_byte. replace (d <? st_count s) with false by lia. reflexivity.
Qed.
