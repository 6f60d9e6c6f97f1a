(* MetaProofs3.v: splitting into tasks and chunks; the cache friendly executors and
   MultiThreadGemm. *)
From Verif Require Import Base BaseLemmas OutputModel OutputProofs EightBitModel MetaModel MetaSpec MetaProofs MetaProofs2.

(* ------------------------------------------------------------------ *)
(* chunks *)
Definition even_chunks (t c N : Z) : list (Z * Z) := map (fun i => (i * c, c)) (zrange t) ++ [(t * c, N - t * c)].
Lemma even_chunks_nth t c N i : 0 <= t -> nth_error (even_chunks t c N) i =
  if Z.of_nat i <? t then Some (Z.of_nat i * c, c) else if Z.of_nat i =? t then Some (t * c, N - t * c) else None.
Proof.
  intros Ht. unfold even_chunks. assert (L : length (map (fun i => (i * c, c)) (zrange t)) = Z.to_nat t).
  { rewrite map_length. unfold zrange. rewrite map_length, seq_length. reflexivity. }
  destruct (Z.ltb_spec (Z.of_nat i) t) as [H|H].
  - rewrite nth_error_app1 by lia. erewrite map_nth_error; [reflexivity|]. unfold zrange.
    erewrite map_nth_error; [reflexivity|]. rewrite (nth_error_nth' _ 0%nat) by (rewrite seq_length; lia). rewrite seq_nth by lia. reflexivity.
  - rewrite nth_error_app2 by lia. rewrite L. destruct (Z.eqb_spec (Z.of_nat i) t) as [E|E].
    + replace (i - Z.to_nat t)%nat with O by lia. reflexivity.
    + destruct (i - Z.to_nat t)%nat as [|n] eqn:X; [lia|]. cbn. apply nth_error_None. cbn. lia.
Qed.
Lemma even_chunks_length t c N : 0 <= t -> length (even_chunks t c N) = S (Z.to_nat t).
Proof. intros H. unfold even_chunks. rewrite app_length, map_length. unfold zrange. rewrite map_length, seq_length. cbn. lia. Qed.
Lemma even_chunks_In t c N x : 0 <= t -> In x (even_chunks t c N) ->
  (exists i, 0 <= i < t /\ x = (i * c, c)) \/ x = (t * c, N - t * c).
Proof.
  intros Ht H. unfold even_chunks in H. rewrite in_app_iff, in_map_iff in H. destruct H as [[i [E Hi]]|[E|[]]].
  - left. exists i. apply zrange_In in Hi. auto.
  - right. auto.
Qed.
Lemma even_chunks_partition t c N : 0 <= t -> 0 < c -> t * c < N -> chunk_partition (even_chunks t c N) N.
Proof.
  intros Ht Hc HN. split; [|split].
  - intros x Hx. destruct (even_chunks_In _ _ _ _ Ht Hx) as [[i [Hi ->]]| ->]; cbn [fst snd]; nia.
  - intros j Hj. unfold in_chunk. destruct (Z.lt_ge_cases j (t * c)) as [H|H].
    + exists (j / c * c, c). assert (D := Z.div_mod j c ltac:(lia)). assert (M := Z.mod_pos_bound j c ltac:(lia)).
      split; [|cbn [fst snd]; nia]. unfold even_chunks. apply in_or_app. left. apply in_map_iff. exists (j / c).
      split; [reflexivity|]. apply zrange_In. nia.
    + exists (t * c, N - t * c). split; [unfold even_chunks; apply in_or_app; right; left; reflexivity|cbn [fst snd]; lia].
  - intros u v x y j. rewrite !even_chunks_nth by exact Ht. unfold in_chunk.
    destruct (Z.ltb_spec (Z.of_nat u) t), (Z.ltb_spec (Z.of_nat v) t), (Z.eqb_spec (Z.of_nat u) t), (Z.eqb_spec (Z.of_nat v) t);
      intros E1 E2; inversion E1; inversion E2; subst; cbn [fst snd]; intros; try lia; nia.
Qed.
Lemma split_dim_even dim T : 1 <= T <= dim -> split_dim dim T = even_chunks (T - 1) (dim / T) dim.
Proof. intros H. unfold split_dim. rewrite Z.quot_div_nonneg by lia. reflexivity. Qed.
Lemma split_dim_side dim T : 1 <= T <= dim -> 0 < dim / T /\ (T - 1) * (dim / T) < dim /\ T * (dim / T) <= dim.
Proof.
  intros H. assert (D := Z.div_mod dim T ltac:(lia)). assert (M := Z.mod_pos_bound dim T ltac:(lia)).
  assert (1 <= dim / T) by (apply Z.div_le_lower_bound; lia). nia.
Qed.
Lemma split_dim_partition dim T : 1 <= T <= dim -> chunk_partition (split_dim dim T) dim.
Proof. intros H. destruct (split_dim_side dim T H) as [H1 [H2 _]]. rewrite split_dim_even by exact H. apply even_chunks_partition; lia. Qed.
Lemma split_dim_length dim T : 1 <= T <= dim -> Z.of_nat (length (split_dim dim T)) = T.
Proof. intros H. rewrite split_dim_even, even_chunks_length by lia. lia. Qed.
Lemma split_dim_sizes dim T c : 1 <= T <= dim -> In c (split_dim dim T) -> dim / T <= snd c <= dim / T + dim mod T.
Proof.
  intros H Hc. rewrite split_dim_even in Hc by exact H. destruct (split_dim_side dim T H) as [_ [_ H3]].
  assert (D := Z.div_mod dim T ltac:(lia)). assert (M := Z.mod_pos_bound dim T ltac:(lia)).
  set (q := dim / T) in *. set (r := dim mod T) in *. clearbody q r.
  destruct (even_chunks_In (T - 1) _ _ _ ltac:(lia) Hc) as [[i [Hi ->]]| ->]; cbn [snd]; lia.
Qed.

(* ------------------------------------------------------------------ *)
(* tasks *)
Lemma real_tasks_bound mode mt m n k T : real_tasks mode mt m n k = Some T ->
  1 <= T <= Z.max 1 mt /\ (T = 1 \/ T <= Z.max (Z.quot m 4) (Z.quot n 4)).
Proof.
  unfold real_tasks. destruct (norm mode 32 (m * n)) as [mn|]; [|discriminate]. cbn [bind].
  destruct (norm mode 32 (mn * k)) as [mnk|]; [|discriminate]. cbn [bind]. intros E. injection E as <-. lia.
Qed.
Lemma split_tasks_partition T m n : 1 <= m -> 1 <= n -> 1 <= T -> T = 1 \/ T <= Z.max (Z.quot m 4) (Z.quot n 4) ->
  rect_partition (split_tasks T m n) m n /\ Z.of_nat (length (split_tasks T m n)) = T /\
  (T <> 1 -> forall r, In r (split_tasks T m n) -> (4 <= tr_m r /\ tr_n r = n) \/ (4 <= tr_n r /\ tr_m r = m)).
Proof.
  intros Hm Hn HT Hd. rewrite !Z.quot_div_nonneg in Hd by lia. unfold split_tasks. destruct (Z.eqb_spec T 1) as [->|Hne].
  { split; [|split; [reflexivity|lia]]. split; [|split].
    - intros r [<-|[]]. cbn. lia.
    - intros i j Hi Hj. exists (mk_rect 0 m 0 n). split; [left; reflexivity|]. unfold in_rect. cbn. lia.
    - intros [|[|t]] [|[|u]] r s i j; cbn; try discriminate; reflexivity. }
  rewrite !Z.quot_div_nonneg by lia. destruct (m / 4 >? n / 4) eqn:E.
  - assert (HTm : 1 <= T <= m) by lia. destruct (split_dim_partition m T HTm) as [P1 [P2 P3]]. split; [|split].
    + split; [|split].
      * intros r Hr. apply in_map_iff in Hr. destruct Hr as [c [<- Hc]]. apply P1 in Hc. cbn. lia.
      * intros i j Hi Hj. destruct (P2 i Hi) as [c [Hc Hi']]. exists (mk_rect (fst c) (snd c) 0 n).
        split; [apply in_map_iff; exists c; auto|]. unfold in_rect, in_chunk in *. cbn. lia.
      * intros t u r s i j Hr Hs. rewrite nth_error_map in Hr, Hs.
        destruct (nth_error (split_dim m T) t) as [c|] eqn:Ec; [|discriminate].
        destruct (nth_error (split_dim m T) u) as [d|] eqn:Ed; [|discriminate].
        injection Hr as <-. injection Hs as <-. unfold in_rect. cbn. intros I1 I2.
        apply (P3 t u c d i Ec Ed); unfold in_chunk; lia.
    + rewrite map_length. apply split_dim_length. exact HTm.
    + intros _ r Hr. apply in_map_iff in Hr. destruct Hr as [c [<- Hc]]. left. cbn.
      destruct (split_dim_sizes m T c HTm Hc) as [H1 _]. split; [|reflexivity].
      assert (4 <= m / T); [|lia]. apply Z.div_le_lower_bound; lia.
  - assert (HTn : 1 <= T <= n) by lia. destruct (split_dim_partition n T HTn) as [P1 [P2 P3]]. split; [|split].
    + split; [|split].
      * intros r Hr. apply in_map_iff in Hr. destruct Hr as [c [<- Hc]]. apply P1 in Hc. cbn. lia.
      * intros i j Hi Hj. destruct (P2 j Hj) as [c [Hc Hi']]. exists (mk_rect 0 m (fst c) (snd c)).
        split; [apply in_map_iff; exists c; auto|]. unfold in_rect, in_chunk in *. cbn. lia.
      * intros t u r s i j Hr Hs. rewrite nth_error_map in Hr, Hs.
        destruct (nth_error (split_dim n T) t) as [c|] eqn:Ec; [|discriminate].
        destruct (nth_error (split_dim n T) u) as [d|] eqn:Ed; [|discriminate].
        injection Hr as <-. injection Hs as <-. unfold in_rect. cbn. intros I1 I2.
        apply (P3 t u c d j Ec Ed); unfold in_chunk; lia.
    + rewrite map_length. apply split_dim_length. exact HTn.
    + intros _ r Hr. apply in_map_iff in Hr. destruct Hr as [c [<- Hc]]. right. cbn.
      destruct (split_dim_sizes n T c HTn Hc) as [H1 _]. split; [|reflexivity].
      assert (4 <= n / T); [|lia]. apply Z.div_le_lower_bound; lia.
Qed.
Lemma PrepareTasks_partition mode mt m n k l : 1 <= m -> 1 <= n -> PrepareTasks mode mt m n k = Some l ->
  rect_partition l m n /\ 1 <= Z.of_nat (length l) <= Z.max 1 mt /\
  (Z.of_nat (length l) <> 1 -> forall r, In r l -> (4 <= tr_m r /\ tr_n r = n) \/ (4 <= tr_n r /\ tr_m r = m)).
Proof.
  intros Hm Hn. unfold PrepareTasks. destruct (real_tasks mode mt m n k) as [T|] eqn:E; [|discriminate]. cbn [bind].
  intros X. injection X as <-. apply real_tasks_bound in E. destruct E as [E1 E2].
  destruct (split_tasks_partition T m n) as [P [L S]]; try lia. rewrite L. auto.
Qed.
Lemma real_tasks_defined mode mt m n k : 1 <= m -> 1 <= n -> 0 <= k -> mode = Wrap \/ m * n <= 2 ^ 31 - 1 /\ m * n * k <= 2 ^ 31 - 1 ->
  exists T, real_tasks mode mt m n k = Some T.
Proof.
  intros Hm Hn Hk [->|[H1 H2]]; unfold real_tasks; [cbn [norm bind]; eauto|].
  rewrite (norm_fits mode 32 (m * n)). 2: lia. 2:{ unfold int_min, int_max. change (2 ^ (32 - 1)) with (2 ^ 31). nia. }
  cbn [bind]. rewrite (norm_fits mode 32 (m * n * k)). 2: lia. 2:{ unfold int_min, int_max. change (2 ^ (32 - 1)) with (2 ^ 31). nia. }
  cbn [bind]. eauto.
Qed.

Lemma cache_chunks_ok mode n k : 1 <= n -> 1 <= k -> n * k <= 2 ^ 31 - 1 -> 4 * k <= 2 ^ 31 - 1 ->
  exists l, cache_chunks mode n k = Some l /\ chunk_partition l n /\
    (forall c, In c l -> snd c * k <= 262144 \/ k <= 65536 /\ snd c <= 2 * (4 * (65536 / k)) - 1 \/ 65536 < k /\ snd c = 1).
Proof.
  intros Hn Hk Hb Hb4. unfold cache_chunks. rewrite norm_fits. 2: lia. 2:{ unfold int_min, int_max. change (2 ^ (32 - 1)) with (2 ^ 31). nia. }
  cbn [bind]. destruct (Z.gtb_spec (n * k) 262144) as [H|H].
  - rewrite norm_fits. 2: lia. 2:{ unfold int_min, int_max. change (2 ^ (32 - 1)) with (2 ^ 31). lia. }
    cbn [bind]. replace (k * 4 =? 0) with false by lia. cbn [negb guard bind].
    rewrite (Z.quot_div_nonneg 262144) by lia. replace (262144 / (k * 4)) with (65536 / k).
    2:{ rewrite (Z.mul_comm k 4), <- Z.div_div by lia. reflexivity. }
    set (opt := Z.max 1 (4 * (65536 / k))). assert (Ho : 1 <= opt) by lia. rewrite Z.quot_div_nonneg by lia.
    assert (Hon : opt <= n).
    { unfold opt. assert (k * (65536 / k) <= 65536) by (apply Z.mul_div_le; lia). assert (4 * (65536 / k) * k <= 262144) by lia.
      destruct (Z.le_gt_cases 1 (4 * (65536 / k))); [nia|lia]. }
    assert (D := Z.div_mod n opt ltac:(lia)). assert (M := Z.mod_pos_bound n opt ltac:(lia)).
    assert (Hq : 1 <= n / opt) by (apply Z.div_le_lower_bound; lia).
    eexists. split; [reflexivity|]. fold (even_chunks (n / opt - 1) opt n).
    split; [apply even_chunks_partition; nia|]. intros c Hc. right.
    assert (Hs : snd c <= 2 * opt - 1).
    { destruct (even_chunks_In (n / opt - 1) _ _ _ ltac:(lia) Hc) as [[i [_ ->]]| ->]; cbn [snd]; nia. }
    assert (Hp : 0 < snd c).
    { destruct (even_chunks_In (n / opt - 1) _ _ _ ltac:(lia) Hc) as [[i [_ ->]]| ->]; cbn [snd]; nia. }
    destruct (Z.le_gt_cases k 65536) as [Hk1|Hk1].
    + left. split; [exact Hk1|]. assert (1 <= 65536 / k) by (apply Z.div_le_lower_bound; lia). lia.
    + right. assert (Z0 : 65536 / k = 0) by (apply Z.div_small; lia). unfold opt in Hs. rewrite Z0 in Hs. lia.
  - exists [(0, n)]. split; [reflexivity|]. split.
    + split; [|split].
      * intros c [<-|[]]. cbn. lia.
      * intros j Hj. exists (0, n). split; [left; reflexivity|]. unfold in_chunk. cbn. lia.
      * intros [|[|t]] [|[|u]] c d j; cbn; try discriminate; reflexivity.
    + intros c [<-|[]]. left. cbn. lia.
Qed.

(* ------------------------------------------------------------------ *)
(* running chunks one after the other *)
Lemma run_list_ok {A T} (body : T -> state A -> option (state A)) (R : T -> Z -> Z -> Prop) addr (v : Z -> Z -> A) lo hi l :
  (forall t u c d i j, nth_error l t = Some c -> nth_error l u = Some d -> R c i j -> R d i j -> t = u) ->
  (forall c sc log, In c l -> alloc sc lo hi -> exists sc' t, body c (sc, log) = Some (sc', log ++ t) /\ frame sc sc' lo hi /\ log_over (R c) addr v t) ->
  forall sc log, alloc sc lo hi -> exists sc' t, run_list body l (sc, log) = Some (sc', log ++ t) /\ frame sc sc' lo hi /\
    log_over (fun i j => exists c, In c l /\ R c i j) addr v t.
Proof.
  induction l as [|c l IH]; intros D H sc log Ha.
  - exists sc, []. cbn [run_list]. rewrite app_nil_r. split; [reflexivity|]. split; [apply frame_refl|].
    apply log_nil. intros i j [c [[] _]].
  - cbn [run_list]. destruct (H c sc log (or_introl eq_refl) Ha) as (s1 & t1 & E1 & F1 & L1). rewrite E1. cbn [bind].
    destruct (IH) with (sc := s1) (log := log ++ t1) as (s2 & t2 & E2 & F2 & L2).
    + intros t u x y i j Hx Hy Rx Ry. specialize (D (S t) (S u) x y i j Hx Hy Rx Ry). lia.
    + intros x s lg Hx. apply H. right. exact Hx.
    + eapply frame_alloc; [exact F1|exact Ha].
    + exists s2, (t1 ++ t2). rewrite E2, app_assoc. split; [reflexivity|]. split; [eapply frame_trans; eassumption|].
      eapply log_ext; [eapply log_app; [exact L1|exact L2|]| |auto].
      * intros i j R1 [x [Hx R2]]. apply In_nth_error in Hx. destruct Hx as [u Hu].
        specialize (D 0%nat (S u) c x i j eq_refl Hu R1 R2). lia.
      * intros i j. split.
        -- intros [R1|[x [Hx R2]]]; [exists c; split; [left; reflexivity|exact R1]|exists x; split; [right; exact Hx|exact R2]].
        -- intros [x [[<-|Hx] R2]]; [left; exact R2|right; exists x; auto].
Qed.

(* a sub-rectangle of a problem *)
Definition sub_params {A} (q p : gemm_params A) (mo m no n : Z) : Prop :=
  p_m q = m /\ p_n q = n /\ p_k q = p_k p /\ p_lhs q = advance (p_lhs p) (mo * st_stride (p_left p)) /\
  p_rhs q = advance (p_rhs p) (no * st_stride (p_right p)) /\ p_result q = p_result p + (mo * p_ostride p + no * p_esz p) /\
  p_left q = p_left p /\ p_right q = p_right p /\ p_fin q = p_fin p /\ p_count q = p_count p /\ p_esz q = p_esz p /\ p_ostride q = p_ostride p.
Lemma sub_params_ok {A} (q p : gemm_params A) mo m no n f g : sub_params q p mo m no n -> params_ok p f g ->
  0 <= mo -> 0 <= m -> mo + m <= p_m p -> 0 <= no -> 0 <= n -> no + n <= p_n p ->
  params_ok q (fun i => f (mo + i)) (fun j => g (no + j)).
Proof.
  intros (E1 & E2 & E3 & E4 & E5 & E6 & E7 & E8 & E9 & E10 & E11 & E12) [Hm Hn Hk HL HR HC RL RR] H1 H2 H3 H4 H5 H6.
  split; rewrite ?E1, ?E2, ?E3, ?E4, ?E5, ?E7, ?E8, ?E10; try assumption.
  - intros i d Hi Hd. unfold advance. cbn [s_mem s_base].
    replace (s_base (p_lhs p) + mo * st_stride (p_left p) + i * st_stride (p_left p) + d) with (s_base (p_lhs p) + (mo + i) * st_stride (p_left p) + d) by lia.
    apply RL; lia.
  - intros i d Hi Hd. unfold advance. cbn [s_mem s_base].
    replace (s_base (p_rhs p) + no * st_stride (p_right p) + i * st_stride (p_right p) + d) with (s_base (p_rhs p) + (no + i) * st_stride (p_right p) + d) by lia.
    apply RR; lia.
Qed.
Lemma sub_params_log {A} (q p : gemm_params A) mo m no n f g t : sub_params q p mo m no n ->
  log_over (rect (p_m q) (p_n q)) (entry_address q) (entry_value q (fun i => f (mo + i)) (fun j => g (no + j))) t ->
  log_over (fun i j => mo <= i < mo + m /\ no <= j < no + n) (entry_address p) (entry_value p f g) t.
Proof.
  intros (E1 & E2 & E3 & E4 & E5 & E6 & E7 & E8 & E9 & E10 & E11 & E12) L. apply (log_shift _ _ _ _ mo no) in L.
  eapply log_ext; [exact L| |].
  - intros i j. unfold rect. rewrite E1, E2. lia.
  - intros i j _. unfold entry_address, entry_value, stream_total. rewrite E3, E6, E7, E8, E9, E11, E12. split; [lia|].
    replace (mo + (i - mo)) with i by lia. replace (no + (j - no)) with j by lia. reflexivity.
Qed.
Lemma sub_Update {A} (p : gemm_params A) mo m no n : sub_params (UpdateCacheFriendlyTask mo m no n p) p mo m no n.
Proof. repeat split. Qed.
Lemma sub_Prepare {A} (p : gemm_params A) sc r : sub_params (PrepareGemmTask p sc r) p (tr_m_offset r) (tr_m r) (tr_n_offset r) (tr_n r).
Proof. repeat split. Qed.

(* ------------------------------------------------------------------ *)
(* scratch estimates *)
Lemma AlignTo_le a v : 0 < a -> 0 <= v -> v <= AlignTo a v.
Proof. intros H1 H2. rewrite AlignTo_div by assumption. assert (D := Z.div_mod (v + a - 1) a ltac:(lia)). assert (M := Z.mod_pos_bound (v + a - 1) a ltac:(lia)). nia. Qed.
Lemma Scratch_PackedStride s l k : StreamUtil_Scratch s l k = PackedStride l k s.
Proof. reflexivity. Qed.
Lemma chunks_size_pos n N s : 1 <= n -> 0 <= N -> 1 <= st_count s -> 0 <= chunks_size n N s.
Proof.
  intros Hn HN Hc. unfold chunks_size. apply Z.mul_nonneg_nonneg; [apply Z.div_pos; lia|].
  pose proof (PackedStride_pos n s ltac:(lia) Hc). lia.
Qed.
Lemma chunks_size_mono n N N' s : 1 <= n -> 0 <= N <= N' -> 1 <= st_count s -> chunks_size n N s <= chunks_size n N' s.
Proof.
  intros Hn HN Hc. unfold chunks_size. pose proof (PackedStride_pos n s ltac:(lia) Hc).
  apply Z.mul_le_mono_nonneg_r; [lia|]. apply Z.div_le_mono; lia.
Qed.
Lemma rhs_estimate {A} (p : gemm_params A) m n f g : kernel_exists m n = true -> params_ok p f g ->
  0 <= rhs_need p m n <= PackRHS_EstimateScratchSize p m n 8.
Proof.
  intros He [Hm Hn Hk HL HR HC _ _]. pose proof (kernel_exists_range m n He).
  unfold PackRHS_EstimateScratchSize, rhs_need. rewrite Z.quot_div_nonneg by lia. rewrite !Scratch_PackedStride.
  fold (chunks_size n (p_n p) (p_right p)). pose proof (chunks_size_pos n (p_n p) (p_right p) ltac:(lia) ltac:(lia) ltac:(lia)).
  pose proof (PackedStride_pos m (p_left p) ltac:(lia) ltac:(lia)). split; [lia|]. apply AlignTo_le; lia.
Qed.
Lemma lhs_estimate {A} (p : gemm_params A) m n f g : kernel_exists m n = true -> params_ok p f g ->
  0 <= lhs_need p m n <= PackLHS_EstimateScratchSize p m n 8.
Proof.
  intros He [Hm Hn Hk HL HR HC _ _]. pose proof (kernel_exists_range m n He).
  unfold PackLHS_EstimateScratchSize, lhs_need. rewrite Z.quot_div_nonneg by lia. rewrite !Scratch_PackedStride.
  fold (chunks_size m (p_m p) (p_left p)). pose proof (chunks_size_pos m (p_m p) (p_left p) ltac:(lia) ltac:(lia) ltac:(lia)).
  pose proof (PackedStride_pos n (p_right p) ltac:(lia) ltac:(lia)).
  set (X := chunks_size m (p_m p) (p_left p)) in *. set (Y := PackedStride n 8 (p_right p)) in *. split; [lia|].
  rewrite (Z.add_comm Y X). apply AlignTo_le; lia.
Qed.

(* cache friendly executors *)
Lemma tasks_count cache const per dim chunk T : CalculateCacheFriendlyTasksCount cache const per dim chunk = Some T ->
  0 <= const -> 1 <= per -> 1 <= chunk -> 0 <= dim ->
  exists avail, 1 <= avail /\ const + avail * per <= cache /\ (dim + chunk - 1) / chunk <= T * avail /\
    (1 <= dim -> 1 <= T <= dim) /\ (dim = 0 -> T = 0).
Proof.
  intros E Hc Hp Hk Hd. unfold CalculateCacheFriendlyTasksCount in E. destruct (Z.ltb_spec (const + per) cache) as [H|H]; [|discriminate].
  cbn [guard bind] in E. injection E as <-. rewrite (Z.quot_div_nonneg (cache - const)) by lia.
  set (a := (cache - const) / per). assert (Ha : 1 <= a) by (apply Z.div_le_lower_bound; lia).
  assert (Ha2 : per * a <= cache - const) by (apply Z.mul_div_le; lia).
  rewrite (Z.quot_div_nonneg (dim + chunk - 1)) by lia. set (cc := (dim + chunk - 1) / chunk).
  assert (Hcc : 0 <= cc) by (apply Z.div_pos; lia). rewrite Z.quot_div_nonneg by lia.
  exists a. split; [exact Ha|]. split; [lia|].
  assert (D := Z.div_mod (cc + a - 1) a ltac:(lia)). assert (M := Z.mod_pos_bound (cc + a - 1) a ltac:(lia)).
  split; [lia|]. split.
  - intros H1. assert (1 <= cc) by (apply Z.div_le_lower_bound; lia). split; [apply Z.div_le_lower_bound; lia|].
    assert (cc <= dim). { apply Z.div_le_upper_bound; nia. }
    assert ((cc + a - 1) / a <= cc); [|lia]. apply Z.div_le_upper_bound; nia.
  - intros ->. assert (cc = 0) by (apply Z.div_small; lia). apply Z.div_small. lia.
Qed.
(* chunk sizes that fit: ceil(len / chunk) <= avail *)
Lemma chunk_fits dim chunk T avail len : 1 <= chunk -> 1 <= avail -> 1 <= T <= dim -> (dim + chunk - 1) / chunk <= T * avail ->
  dim mod T <= 1 -> dim / T <= len <= dim / T + dim mod T -> (len + chunk - 1) / chunk <= avail.
Proof.
  intros Hc Ha HT Hcc Hr Hlen. assert (D := Z.div_mod dim T ltac:(lia)).
  assert (dim <= T * avail * chunk).
  { assert (D2 := Z.div_mod (dim + chunk - 1) chunk ltac:(lia)). assert (M2 := Z.mod_pos_bound (dim + chunk - 1) chunk ltac:(lia)). nia. }
  assert (len <= avail * chunk) by nia. apply Z.lt_succ_r. apply Z.div_lt_upper_bound; nia.
Qed.
